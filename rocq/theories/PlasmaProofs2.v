(** Values of the Plasma methods on finite rows. *)
From Coq Require Import List String Ascii Bool Arith ZArith Reals Lra Lia Psatz Permutation Sorted.
From Verif Require Import Py PyStr Sort Num Species SpeciesProofs Frame Plasma PlasmaProofs.
Import ListNotations.
Open Scope string_scope.
Open Scope R_scope.

(** The Series returned by a call, evaluated in row [r], is the finite number [x]. *)
Definition returns (q : result (quantity XR)) (r : row XR) (x : R) : Prop :=
  exists f, q = Ok (Total f) /\ f r = Fin x.
(** The column of species [s] in the frame returned by a call, in row [r], is [x]. *)
Definition returns_col (q : result (quantity XR)) (s : string) (r : row XR) (x : R) : Prop :=
  exists cols f, q = Ok (Each cols) /\ In (s, f) cols /\ f r = Fin x.
Definition plain (q : result (row XR -> XR)) (r : row XR) (x : R) : Prop :=
  exists f, q = Ok f /\ f r = Fin x.
(** a vector result *)
Definition returnsV (q : result (vquantity XR)) (r : row XR) (x y z : R) : Prop :=
  exists f, q = Ok (VOne f) /\ f r = (Fin x, Fin y, Fin z).
(** the magnetic field of a row *)
Definition has_b (r : row XR) (x y z : R) : Prop :=
  r ("b", "x", "") = Fin x /\ r ("b", "y", "") = Fin y /\ r ("b", "z", "") = Fin z.

Lemma usable_one ions s : legal s -> In s ions -> known s -> usable ions [s].
Proof.
  intros Hl Hi Hk. split.
  - discriminate.
  - constructor; [intros []|constructor].
  - intros t [<-|[]]; exact Hl.
  - intros t [<-|[]]; exact Hi.
  - intros t [<-|[]]; exact Hk.
Qed.

(* ------------------------------------------------------------- totals *)
Lemma n_total_val ions names sk r n :
  usable ions names -> (forall s, In s names -> r ("n", "", s) = Fin (n s)) ->
  returns (number_density ions [PStr (join "+" names)] sk) r (Rsum (map n names)).
Proof.
  intros U Hn. eexists; split; [apply number_density_total, U|].
  destruct sk.
  - apply sum_skip_cols. exact Hn.
  - rewrite cols_at_map.
    rewrite (map_ext_in _ (fun s => Fin (n s))) by (intros s Hs; rewrite sort_In in Hs; exact (Hn s Hs)).
    rewrite <- (map_map n Fin), sum_strict_fin, Rsum_sort. reflexivity.
Qed.

Lemma rho_total_val ions names k r n :
  usable ions names -> (forall s, In s names -> r ("n", "", s) = Fin (n s)) ->
  returns (mass_density (kx k) ions [PStr (join "+" names)]) r
          (Rsum (map (fun s => n s * mmp k s) names)).
Proof.
  intros U Hn. eexists; split; [apply mass_density_total, U|].
  apply sum_skip_cols. intros s Hs. apply rho_fun_fin, Hn, Hs.
Qed.

Lemma pth_total_val ions names k c r n w :
  usable ions names -> (forall s, In s names -> r ("n", "", s) = Fin (n s)) ->
  (forall s, In s names -> r ("w", c, s) = Fin (w s)) ->
  returns (pth (kx k) ions [PStr (join "+" names)] c) r
          (Rsum (map (fun s => Rpth k (n s) (w s) s) names)).
Proof.
  intros U Hn Hw. eexists; split; [apply pth_total, U|].
  apply (sum_skip_cols (pth_fun k c) (fun s => Rpth k (n s) (w s) s)).
  intros s Hs. apply pth_fun_fin; auto.
Qed.

Lemma temp_total_val ions names k c r w :
  positive k -> usable ions names ->
  (forall s, In s names -> r ("w", c, s) = Fin (w s)) ->
  returns (temperature (kx k) ions [PStr (join "+" names)] c) r
          (Rsum (map (fun s => Rtemp k (w s) s) names)).
Proof.
  intros P U Hw. eexists; split; [apply temp_total, U|].
  apply (sum_skip_cols (temp_fun k c) (fun s => Rtemp k (w s) s)).
  intros s Hs. apply temp_fun_fin; auto.
Qed.

Lemma each_col {g : string -> row XR -> XR} {q} {names : list string} s r x :
  q = Ok (Each (map (fun s => (s, g s)) (sort_str names))) -> In s names -> g s r = Fin x ->
  returns_col q s r x.
Proof.
  intros E Hs Hg. eexists _, (g s). split; [exact E|]. split; [|exact Hg].
  apply (in_map (fun s => (s, g s))). rewrite sort_In. exact Hs.
Qed.

(** repeated names collapse *)
Lemma nodup_str_sorted l : StronglySorted str_le l -> StronglySorted str_le (nodup_str l).
Proof.
  induction 1 as [|x l Hs IH Hf]; simpl; [constructor|].
  destruct (mem_str x l); [exact IH|]. constructor; [exact IH|].
  apply Forall_forall. intros y Hy. rewrite nodup_str_In in Hy. rewrite Forall_forall in Hf. auto.
Qed.
Lemma canon_same_set l1 l2 :
  (forall s, In s l1 <-> In s l2) -> nodup_str (sort_str l1) = nodup_str (sort_str l2).
Proof.
  intros H. apply sorted_perm_eq.
  - apply nodup_str_sorted, sort_sorted.
  - apply nodup_str_sorted, sort_sorted.
  - apply NoDup_Permutation; try apply nodup_str_NoDup.
    intros s. rewrite !nodup_str_In, !sort_In. apply H.
Qed.
Lemma per_species_same_set {B} ions (q : string -> result B) l1 l2 :
  (forall s, In s l1 <-> In s l2) -> per_species ions q (sort_str l1) = per_species ions q (sort_str l2).
Proof. intros H. unfold per_species. rewrite (canon_same_set l1 l2 H). reflexivity. Qed.

(* ---------------------------------------------------------- magnetic field *)
Lemma vmag_fin x y z : vmag (Fin x, Fin y, Fin z) = Fin (sqrt (x * x + y * y + z * z)).
Proof.
  unfold vmag. cbv zeta. rewrite !fin_sq.
  change [Fin (x * x); Fin (y * y); Fin (z * z)] with (map Fin [x * x; y * y; z * z]).
  rewrite sum_strict_fin, fin_sqrt.
  - f_equal. f_equal. simpl. ring.
  - simpl. nra.
Qed.
Lemma bmag_fin r x y z : has_b r x y z -> bmag r = Fin (sqrt (x * x + y * y + z * z)).
Proof. intros (Hx & Hy & Hz). unfold bmag, bfield. rewrite Hx, Hy, Hz. apply vmag_fin. Qed.
Lemma sumsq_skip_fin x y z : sumsq_skip (Fin x, Fin y, Fin z) = Fin (x * x + y * y + z * z).
Proof.
  unfold sumsq_skip, vcomp. rewrite !fin_sq.
  change [Fin (x * x); Fin (y * y); Fin (z * z)] with (map Fin [x * x; y * y; z * z]).
  rewrite sum_skip_fin. f_equal. simpl. ring.
Qed.
Lemma bsq_fin r x y z : has_b r x y z -> bsq_skip r = Fin (x * x + y * y + z * z).
Proof. intros (Hx & Hy & Hz). unfold bsq_skip, bfield. rewrite Hx, Hy, Hz. apply sumsq_skip_fin. Qed.

Lemma bmag_sq r x y z : has_b r x y z -> asq (bmag r) = Fin (x * x + y * y + z * z).
Proof.
  intros H. rewrite (bmag_fin _ _ _ _ H), fin_sq. f_equal. apply sqrt_sqrt. nra.
Qed.

Definition Rbeta_coeff (k : consts R) : R := (2 * c_mu0 k) * (Upth / (Ub * Ub)).
Lemma beta_coeff_fin k : beta_coeff (kx k) = Fin (Rbeta_coeff k).
Proof.
  unfold beta_coeff, Rbeta_coeff. rewrite fin_a2, fin_ub, fin_upth. simpl c_mu0. xfin.
  pose proof Ub_pos. rewrite fin_div by nra. xfin. reflexivity.
Qed.

Lemma beta_total ions names k c :
  usable ions names ->
  beta (kx k) ions [PStr (join "+" names)] c =
  Ok (Total (fun r => ((sum_skip (cols_at (map (fun s => (s, pth_fun k c s)) (sort_str names)) r)
                        / asq (bmag r)) * beta_coeff (kx k))%num)).
Proof. intros U. unfold beta. rewrite (pth_total k c U). reflexivity. Qed.

Lemma beta_total_val ions names k c r n w bx by' bz :
  usable ions names -> (forall s, In s names -> r ("n", "", s) = Fin (n s)) ->
  (forall s, In s names -> r ("w", c, s) = Fin (w s)) ->
  has_b r bx by' bz -> bx * bx + by' * by' + bz * bz <> 0 ->
  returns (beta (kx k) ions [PStr (join "+" names)] c) r
    (Rsum (map (fun s => Rpth k (n s) (w s) s) names) / (bx * bx + by' * by' + bz * bz) * Rbeta_coeff k).
Proof.
  intros U Hn Hw Hb Hnz. eexists; split; [apply beta_total, U|]. cbv beta.
  rewrite (sum_skip_cols (pth_fun k c) (fun s => Rpth k (n s) (w s) s))
    by (intros s Hs; apply pth_fun_fin; auto).
  rewrite (bmag_sq _ _ _ _ Hb), beta_coeff_fin, fin_div by exact Hnz. xfin. reflexivity.
Qed.

(* --------------------------------------------------------------- afsq *)
Definition Rafsq_coeff (k : consts R) : R := (c_mu0 k * Upth) / (Ub * Ub).
Lemma afsq_coeff_fin k : afsq_coeff (kx k) = Fin (Rafsq_coeff k).
Proof.
  unfold afsq_coeff, Rafsq_coeff. rewrite fin_ub, fin_upth. simpl c_mu0. xfin.
  pose proof Ub_pos. rewrite fin_div by nra. reflexivity.
Qed.
Lemma afsq_total_val ions names k r n wpar wper bx by' bz :
  usable ions names -> (forall s, In s names -> r ("n", "", s) = Fin (n s)) ->
  (forall s, In s names -> r ("w", "par", s) = Fin (wpar s)) ->
  (forall s, In s names -> r ("w", "per", s) = Fin (wper s)) ->
  has_b r bx by' bz -> bx * bx + by' * by' + bz * bz <> 0 ->
  returns (afsq (kx k) ions [PStr (join "+" names)] false) r
    (1 + (Rsum (map (fun s => Rpth k (n s) (wper s) s) names)
          - Rsum (map (fun s => Rpth k (n s) (wpar s) s) names))
         / (bx * bx + by' * by' + bz * bz) * Rafsq_coeff k).
Proof.
  intros U Hn Ha He Hb Hnz. eexists; split.
  - unfold afsq. rewrite !(pth_total k _ U). reflexivity.
  - cbv beta.
    rewrite (sum_skip_cols (pth_fun k "par") (fun s => Rpth k (n s) (wpar s) s))
      by (intros s Hs; apply pth_fun_fin; auto).
    rewrite (sum_skip_cols (pth_fun k "per") (fun s => Rpth k (n s) (wper s) s))
      by (intros s Hs; apply pth_fun_fin; auto).
    rewrite (bsq_fin _ _ _ _ Hb), afsq_coeff_fin.
    rewrite fin_ofZ, fin_a1, !fin_mul.
    set (P := Rsum _). set (Q := Rsum _).
    change [Fin (P * -1); Fin (Q * 1)] with (map Fin [P * -1; Q * 1]).
    rewrite sum_skip_fin, fin_div by exact Hnz. xfin. f_equal. simpl. field. exact Hnz.
Qed.

(* ------------------------------------------------------------------ ca *)
Definition Rca_coeff (k : consts R) : R := Ub / (sqrt (Urho k * c_mu0 k) * Uv).
Lemma ca_coeff_fin k : positive k -> ca_coeff (kx k) = Fin (Rca_coeff k).
Proof.
  intros P. unfold ca_coeff, Rca_coeff. rewrite fin_ub, fin_uv, fin_urho. simpl c_mu0.
  pose proof (Urho_pos k P). pose proof Uv_pos. destruct P.
  assert (0 < Urho k * c_mu0 k) by nra.
  xfin. rewrite fin_sqrt by lra. xfin.
  assert (0 < sqrt (Urho k * c_mu0 k)) by (apply sqrt_lt_R0; assumption).
  rewrite fin_div by nra. reflexivity.
Qed.
Lemma ca_total_val ions names k r n bx by' bz :
  positive k -> usable ions names -> (forall s, In s names -> r ("n", "", s) = Fin (n s)) ->
  has_b r bx by' bz -> 0 < Rsum (map (fun s => n s * mmp k s) names) ->
  returns (ca (kx k) ions [PStr (join "+" names)]) r
    (/ sqrt (Rsum (map (fun s => n s * mmp k s) names)) * sqrt (bx * bx + by' * by' + bz * bz) * Rca_coeff k).
Proof.
  intros P U Hn Hb Hpos. eexists; split.
  - unfold ca. rewrite (mass_density_total k U). reflexivity.
  - cbv beta.
    rewrite (sum_skip_cols (rho_fun k) (fun s => n s * mmp k s))
      by (intros s Hs; apply rho_fun_fin, Hn, Hs).
    rewrite (bmag_fin _ _ _ _ Hb), (ca_coeff_fin k P), fin_sqrt by lra.
    assert (0 < sqrt (Rsum (map (fun s => n s * mmp k s) names))) by (apply sqrt_lt_R0; exact Hpos).
    rewrite fin_inv by lra. xfin. reflexivity.
Qed.

(* ------------------------------------------------------------------ cs *)
Lemma cs_total_val ions names k r n w :
  positive k -> usable ions names -> (forall s, In s names -> r ("n", "", s) = Fin (n s)) ->
  (forall s, In s names -> r ("w", "scalar", s) = Fin (w s)) ->
  0 < Rsum (map (fun s => n s * mmp k s) names) ->
  0 <= Rsum (map (fun s => Rpth k (n s) (w s) s) names) ->
  returns (sound_speed (kx k) ions [PStr (join "+" names)]) r
    (sqrt ((Rsum (map (fun s => Rpth k (n s) (w s) s) names) * Upth)
           / (Rsum (map (fun s => n s * mmp k s) names) * Urho k) * (5 / 3)) / Uv).
Proof.
  intros P U Hn Hw Hpos Hp. eexists; split.
  - unfold sound_speed. rewrite (mass_density_total k U), (pth_total k _ U). reflexivity.
  - cbv beta.
    rewrite (sum_skip_cols (rho_fun k) (fun s => n s * mmp k s))
      by (intros s Hs; apply rho_fun_fin, Hn, Hs).
    rewrite (sum_skip_cols (pth_fun k "scalar") (fun s => Rpth k (n s) (w s) s))
      by (intros s Hs; apply pth_fun_fin; auto).
    rewrite fin_upth, fin_urho, fin_gamma, fin_uv.
    pose proof (Urho_pos k P). pose proof Upth_pos. pose proof Uv_pos.
    set (RHO := Rsum (map (fun s => n s * mmp k s) names)) in *.
    set (PP := Rsum (map (fun s => Rpth k (n s) (w s) s) names)) in *.
    assert (0 < RHO * Urho k) by (apply Rmult_lt_0_compat; assumption).
    assert (0 <= PP * Upth) by (apply Rmult_le_pos; lra).
    assert (0 <= PP * Upth / (RHO * Urho k)).
    { apply Rmult_le_pos; [assumption|]. left. apply Rinv_0_lt_compat. assumption. }
    xfin. rewrite fin_div by lra. xfin.
    rewrite fin_sqrt by (apply Rmult_le_pos; [assumption|lra]).
    rewrite fin_div by lra. reflexivity.
Qed.

(* ---------------------------------------------------------- anisotropy *)
Lemma prod_skip2 a b : prod_skip [Fin a; Fin b] = Fin (a * b).
Proof.
  change [Fin a; Fin b] with (map Fin [a; b]). rewrite prod_skip_fin. f_equal. simpl. ring.
Qed.
Lemma aniso_total_val ions names k r n wpar wper :
  usable ions names -> (forall s, In s names -> r ("n", "", s) = Fin (n s)) ->
  (forall s, In s names -> r ("w", "par", s) = Fin (wpar s)) ->
  (forall s, In s names -> r ("w", "per", s) = Fin (wper s)) ->
  Rsum (map (fun s => Rpth k (n s) (wpar s) s) names) <> 0 ->
  returns (anisotropy (kx k) ions [PStr (join "+" names)]) r
    (Rsum (map (fun s => Rpth k (n s) (wper s) s) names)
     / Rsum (map (fun s => Rpth k (n s) (wpar s) s) names)).
Proof.
  intros U Hn Ha He Hnz. eexists; split.
  - unfold anisotropy. rewrite !(pth_total k _ U). reflexivity.
  - cbv beta.
    rewrite (sum_skip_cols (pth_fun k "par") (fun s => Rpth k (n s) (wpar s) s))
      by (intros s Hs; apply pth_fun_fin; auto).
    rewrite (sum_skip_cols (pth_fun k "per") (fun s => Rpth k (n s) (wper s) s))
      by (intros s Hs; apply pth_fun_fin; auto).
    rewrite fin_inv by exact Hnz. rewrite prod_skip2. f_equal. field. exact Hnz.
Qed.

(* ------------------------------------------------------------ velocity *)
