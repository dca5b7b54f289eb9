(** Derivations behind the Plasma property theorems. *)
From Coq Require Import List String Ascii Bool Arith ZArith Reals Lra Lia Psatz Permutation.
From Verif Require Import Py PyStr Sort Num Species SpeciesProofs Frame Plasma PlasmaProofs PlasmaProofs2 PlasmaProofs3 PlasmaProofs4.
Import ListNotations.
Open Scope string_scope.
Open Scope R_scope.

Lemma returns_fun q r x y : returns q r x -> returns q r y -> x = y.
Proof. intros (f & E & F) (g & E' & G). rewrite E in E'. inversion E'; subst. congruence. Qed.
Lemma plain_fun q r x y : plain q r x -> plain q r y -> x = y.
Proof. intros (f & E & F) (g & E' & G). rewrite E in E'. inversion E'; subst. congruence. Qed.

Lemma pth_one_val ions k c r s n w :
  usable ions [s] -> r ("n", "", s) = Fin n -> r ("w", c, s) = Fin w ->
  returns (pth (kx k) ions [PStr s] c) r (Rpth k n w s).
Proof.
  intros U Hn Hw. pose proof (pth_total_val ions [s] k c r (fun _ => n) (fun _ => w) U) as H.
  simpl in H. rewrite Rplus_0_r in H. apply H; intros t [<-|[]]; assumption.
Qed.
Lemma temp_one_val ions k c r s w :
  positive k -> usable ions [s] -> r ("w", c, s) = Fin w ->
  returns (temperature (kx k) ions [PStr s] c) r (Rtemp k w s).
Proof.
  intros P U Hw. pose proof (temp_total_val ions [s] k c r (fun _ => w) P U) as H.
  simpl in H. rewrite Rplus_0_r in H. apply H; intros t [<-|[]]; assumption.
Qed.

Lemma Rpth_nonneg k n w s : positive k -> known s -> 0 <= n -> 0 <= Rpth k n w s.
Proof.
  intros P K Hn. unfold Rpth, Rrho. pose proof (mmp_pos k s P K). pose proof Upth_pos. pose proof (Urho_pos k P).
  apply Rmult_le_pos.
  - unfold Rdiv. left. apply Rmult_lt_0_compat; [lra|]. apply Rinv_0_lt_compat; assumption.
  - apply Rmult_le_pos; [apply Rle_0_sqr|]. apply Rmult_le_pos; [apply Rmult_le_pos|]; lra.
Qed.
Lemma Rpth_pos k n w s : positive k -> known s -> 0 < n -> w <> 0 -> 0 < Rpth k n w s.
Proof.
  intros P K Hn Hw. unfold Rpth, Rrho. pose proof (mmp_pos k s P K). pose proof Upth_pos. pose proof (Urho_pos k P).
  pose proof Uv_pos.
  apply Rmult_lt_0_compat.
  - unfold Rdiv. apply Rmult_lt_0_compat; [lra|]. apply Rinv_0_lt_compat; assumption.
  - apply Rmult_lt_0_compat; [|apply Rmult_lt_0_compat; [apply Rmult_lt_0_compat|]; assumption].
    apply Rsqr_pos_lt. apply Rmult_integral_contrapositive_currified; lra.
Qed.

Lemma Rsum_div_mul (f : string -> R) names d q :
  Rsum (map (fun s => f s / d * q) names) = Rsum (map f names) / d * q.
Proof.
  induction names as [|x l IH]; simpl; [unfold Rdiv; ring|]. rewrite IH. unfold Rdiv. ring.
Qed.

(* ---------------------------------------------------------------- C11 *)
Lemma sum_skip_opt (l : list (option R)) :
  sum_skip (map (fun o => match o with Some x => Fin x | None => NaN end) l) =
  Fin (Rsum (map (fun o => match o with Some x => x | None => 0 end) l)).
Proof.
  unfold sum_skip. rewrite fin_a0.
  assert (G : forall a, fold_left (fun acc x => if aisnan x then acc else aadd acc x)
     (map (fun o => match o with Some x => Fin x | None => NaN end) l) (Fin a)
     = Fin (a + Rsum (map (fun o => match o with Some x => x | None => 0 end) l))).
  { induction l as [|[x|] l IH]; intros a; cbn [map fold_left Rsum].
    - f_equal; ring.
    - rewrite fin_isnan, fin_add, IH. f_equal. ring.
    - change (aisnan NaN) with true. cbv iota. rewrite IH. f_equal. ring. }
  rewrite G. f_equal. ring.
Qed.
Lemma n_total_present ions names r (n : string -> option R) :
  usable ions names ->
  (forall s, In s names -> r ("n", "", s) = match n s with Some x => Fin x | None => NaN end) ->
  returns (number_density ions [PStr (join "+" names)] true) r
    (Rsum (map (fun s => match n s with Some x => x | None => 0 end) names)).
Proof.
  intros U Hn. eexists; split; [apply (number_density_total true U)|]. cbv beta iota.
  rewrite cols_at_map.
  rewrite (map_ext_in _ (fun s => match n s with Some x => Fin x | None => NaN end))
    by (intros s Hs; rewrite sort_In in Hs; exact (Hn s Hs)).
  rewrite <- (map_map n (fun o => match o with Some x => Fin x | None => NaN end)), sum_skip_opt, map_map.
  rewrite Rsum_sort. reflexivity.
Qed.

Lemma pth_fun_nan k c s r : r ("n", "", s) = NaN \/ r ("w", c, s) = NaN -> pth_fun k c s r = NaN.
Proof.
  intros [H|H]; unfold pth_fun, rho_fun, ion_n, ion_w; rewrite H.
  - repeat (rewrite nan_mul_l || rewrite nan_mul_r). reflexivity.
  - unfold asq. repeat (rewrite nan_mul_l || rewrite nan_mul_r). reflexivity.
Qed.

Definition ref_row : row XR := fun k =>
  let '(m, c, s) := k in
  if String.eqb m "n" then (if String.eqb s "a" then NaN else Fin 20)
  else if String.eqb m "w" then (if String.eqb c "par" then NaN else Fin 40)
  else Fin 3.
Definition ones : consts R := mkConsts 1 1 1 1 1 1 1 1 1 1 1 1 1.
Lemma ones_positive : positive ones.
Proof. split; simpl; lra. Qed.

Lemma ap_usable s : In s ["a"; "p1"] -> usable ["a"; "p1"] [s].
Proof.
  intros H. apply usable_one; [| exact H|]; destruct H as [<-|[<-|[]]]; try (split; reflexivity); eexists; reflexivity.
Qed.
Lemma ap_usable2 : usable ["a"; "p1"] ["a"; "p1"].
Proof.
  split.
  - discriminate.
  - repeat constructor; simpl; intuition discriminate.
  - intros s [<-|[<-|[]]]; split; reflexivity.
  - auto.
  - intros s [<-|[<-|[]]]; eexists; reflexivity.
Qed.

Lemma skip_nan1 x : x = NaN -> sum_skip [x] = Fin 0.
Proof. intros ->. exact (sum_skip_nan [0]). Qed.

Lemma temp_fun_nan k c s r : r ("w", c, s) = NaN -> temp_fun k c s r = NaN.
Proof.
  intros H; unfold temp_fun, ion_w, asq; rewrite H. repeat (rewrite nan_mul_l || rewrite nan_mul_r). reflexivity.
Qed.

Lemma inv0 : ainv (Fin 0) = PInf.
Proof.
  unfold ainv. rewrite fin_a1. change (xdiv (Fin 1) (Fin 0) = PInf). unfold xdiv, inf_sign.
  assert (E : Reqb 0 0 = true) by (apply Reqb_true; reflexivity). rewrite E.
  assert (F : Rltb 0 1 = true) by (apply Rltb_true; lra). rewrite F. reflexivity.
Qed.
Lemma pinf_mul_pos a : 0 < a -> amul PInf (Fin a) = PInf.
Proof.
  intros H. change (xmul PInf (Fin a) = PInf). unfold xmul, inf_sign. apply Rltb_true in H. rewrite H. reflexivity.
Qed.
Lemma pinf_mul_zero : amul PInf (Fin 0) = NaN.
Proof.
  change (xmul PInf (Fin 0) = NaN). unfold xmul, inf_sign.
  assert (F : Rltb 0 0 = false) by (apply Rltb_false; lra). rewrite F. reflexivity.
Qed.
Lemma prod_skip_pinf a : 0 < a -> prod_skip [PInf; Fin a] = PInf.
Proof.
  intros H. unfold prod_skip. cbn [fold_left]. change (aisnan PInf) with false. rewrite fin_isnan. cbv iota.
  rewrite fin_a1. replace (amul (Fin 1) PInf) with PInf; [apply pinf_mul_pos, H|].
  change (PInf = xmul (Fin 1) PInf). unfold xmul, inf_sign.
  assert (F : Rltb 0 1 = true) by (apply Rltb_true; lra). rewrite F. reflexivity.
Qed.

Lemma missing_refutation :
  exists (r : row XR) k,
    r ("n", "", "a") = NaN /\ r ("w", "par", "p1") = NaN /\ positive k /\
    returns (number_density ["a"; "p1"] [PStr "a"] true) r 0 /\
    returns (number_density ["a"; "p1"] [PStr "a+p1"] true) r 20 /\
    returns (mass_density (kx k) ["a"; "p1"] [PStr "a"]) r 0 /\
    returns (pth (kx k) ["a"; "p1"] [PStr "a"] "par") r 0 /\
    returns (pth (kx k) ["a"; "p1"] [PStr "p1"] "par") r 0 /\
    returns (temperature (kx k) ["a"; "p1"] [PStr "p1"] "par") r 0 /\
    returns (thermal_speed ["a"; "p1"] [PStr "p1"] "par") r 0 /\
    (exists f, anisotropy (kx k) ["a"; "p1"] [PStr "p1"] = Ok (Total f) /\ f r = PInf).
Proof.
  exists ref_row, ones.
  assert (Ua := ap_usable "a" (or_introl eq_refl)).
  assert (Up := ap_usable "p1" (or_intror (or_introl eq_refl))).
  split; [reflexivity|]. split; [reflexivity|]. split; [exact ones_positive|].
  split; [|split; [|split; [|split; [|split; [|split; [|split]]]]]].
  - eexists; split; [exact (number_density_one _ _ Ua)|]. apply skip_nan1. reflexivity.
  - pose proof (n_total_present ["a"; "p1"] ["a"; "p1"] ref_row
      (fun s => if String.eqb s "a" then None else Some 20) ap_usable2) as H.
    simpl in H. replace 20 with (0 + (20 + 0)) by ring. apply H.
    intros s [<-|[<-|[]]]; reflexivity.
  - eexists; split; [exact (mass_density_one _ _ _ Ua)|]. apply skip_nan1. reflexivity.
  - eexists; split; [exact (@pth_total _ ["a"] ones "par" Ua)|]. apply skip_nan1.
    apply pth_fun_nan. left; reflexivity.
  - eexists; split; [exact (@pth_total _ ["p1"] ones "par" Up)|]. apply skip_nan1.
    apply pth_fun_nan. right; reflexivity.
  - eexists; split; [exact (@temp_total _ ["p1"] ones "par" Up)|]. apply skip_nan1.
    apply temp_fun_nan. reflexivity.
  - eexists; split; [exact (thermal_one _ _ _ Up)|]. apply skip_nan1. reflexivity.
  - eexists; split.
    + unfold anisotropy. rewrite (@pth_total _ ["p1"] ones "par" Up : pth (kx ones) ["a"; "p1"] [PStr "p1"] "par" = _).
      rewrite (@pth_total _ ["p1"] ones "per" Up : pth (kx ones) ["a"; "p1"] [PStr "p1"] "per" = _). reflexivity.
    + cbv beta.
      replace (sum_skip (cols_at (map (fun s => (s, pth_fun ones "par" s)) (sort_str ["p1"])) ref_row)) with (Fin 0)
        by (symmetry; apply skip_nan1, pth_fun_nan; right; reflexivity).
      rewrite (sum_skip_cols (pth_fun ones "per") (fun s => Rpth ones 20 40 s))
        by (intros s [<-|[]]; apply pth_fun_fin; reflexivity).
      rewrite inv0. apply prod_skip_pinf. simpl. rewrite Rplus_0_r.
      apply Rpth_pos; [exact ones_positive|eexists; reflexivity|lra|lra].
Qed.

(* ---------------------------------------------------------------- C12 *)
Lemma ideal_gas ions s k c r n w p T :
  positive k -> consistent k -> usable ions [s] ->
  r ("n", "", s) = Fin n -> r ("w", c, s) = Fin w ->
  returns (pth (kx k) ions [PStr s] c) r p ->
  returns (temperature (kx k) ions [PStr s] c) r T ->
  p * Upth = (n * Un) * c_kbJ k * (T * UT).
Proof.
  intros P C U Hn Hw Hp HT.
  rewrite (returns_fun _ _ _ _ Hp (pth_one_val ions k c r s n w U Hn Hw)).
  rewrite (returns_fun _ _ _ _ HT (temp_one_val ions k c r s w P U Hw)).
  unfold Rpth, Rtemp, Rrho. rewrite (consistent_mass k s C) by (apply U; left; reflexivity).
  assert (EU : Urho k = Un * c_mp k) by (with_strategy transparent [Urho] reflexivity).
  rewrite EU. pose proof Upth_pos. pose proof UT_pos. destruct P. field. lra.
Qed.
Definition ex_consistent : consts R :=
  mkConsts 1 (1 / 1836) 4 4 (1 / 1836) 1 4 (1 / 1836) 1 1 1 1 1.
Lemma ex_consistent_ok : positive ex_consistent /\ consistent ex_consistent.
Proof. split; [split; simpl; lra|split; simpl; lra]. Qed.

(* ---------------------------------------------------------------- C13 *)
Lemma div_zero_pos a : 0 < a -> adiv (Fin a) (Fin 0) = PInf.
Proof.
  intros H. change (xdiv (Fin a) (Fin 0) = PInf). unfold xdiv, inf_sign.
  assert (E : Reqb 0 0 = true) by (apply Reqb_true; reflexivity). rewrite E.
  apply Rltb_true in H. rewrite H. reflexivity.
Qed.
Lemma div_zero_zero : adiv (Fin 0) (Fin 0) = NaN.
Proof.
  change (xdiv (Fin 0) (Fin 0) = NaN). unfold xdiv, inf_sign.
  assert (E : Reqb 0 0 = true) by (apply Reqb_true; reflexivity). rewrite E.
  assert (F : Rltb 0 0 = false) by (apply Rltb_false; lra). rewrite F. reflexivity.
Qed.
Lemma Rbeta_coeff_pos k : positive k -> 0 < Rbeta_coeff k.
Proof.
  intros P. unfold Rbeta_coeff, Rdiv. pose proof Ub_pos. pose proof Upth_pos. destruct P.
  apply Rmult_lt_0_compat; [lra|]. apply Rmult_lt_0_compat; [assumption|]. apply Rinv_0_lt_compat. nra.
Qed.
Lemma beta_null_field ions names k c r n w p :
  positive k -> usable ions names ->
  (forall s, In s names -> r ("n", "", s) = Fin (n s)) ->
  (forall s, In s names -> r ("w", c, s) = Fin (w s)) -> has_b r 0 0 0 ->
  returns (pth (kx k) ions [PStr (join "+" names)] c) r p ->
  exists f, beta (kx k) ions [PStr (join "+" names)] c = Ok (Total f) /\
            (0 < p -> f r = PInf) /\ (p = 0 -> f r = NaN).
Proof.
  intros P U Hn Hw Hb Hp. eexists; split; [apply beta_total, U|]. cbv beta.
  rewrite (returns_fun _ _ _ _ Hp (pth_total_val ions names k c r n w U Hn Hw)).
  rewrite (sum_skip_cols (pth_fun k c) (fun s => Rpth k (n s) (w s) s))
    by (intros s Hs; apply pth_fun_fin; auto).
  rewrite (bmag_sq _ _ _ _ Hb), beta_coeff_fin. replace (0 * 0 + 0 * 0 + 0 * 0) with 0 by ring.
  split.
  - intros H. rewrite div_zero_pos by exact H. apply pinf_mul_pos, Rbeta_coeff_pos, P.
  - intros ->. rewrite div_zero_zero. apply nan_mul_l.
Qed.

(* ---------------------------------------------------------------- C14 *)
Lemma aniso_each_val ions names k r n wpar wper s :
  positive k -> usable ions names -> (1 < List.length names)%nat ->
  In s names -> r ("n", "", s) = Fin n -> r ("w", "par", s) = Fin wpar -> r ("w", "per", s) = Fin wper ->
  0 < n -> 0 < wpar ->
  returns_col (anisotropy (kx k) ions (map PStr names)) s r (wper ^ 2 / wpar ^ 2).
Proof.
  intros P U L Hs Hn Ha He Pn Pw.
  apply (each_col (g := fun s r => prod_skip [ainv (pth_fun k "par" s r); pth_fun k "per" s r]) (names := names)).
  - unfold anisotropy. rewrite !(pth_each k _ U) by lia. cbn [bind qmap2].
    rewrite combine_map_same, map_map. reflexivity.
  - exact Hs.
  - cbv beta. rewrite (pth_fun_fin k "par" s r n wpar Hn Ha), (pth_fun_fin k "per" s r n wper Hn He).
    assert (0 < Rpth k n wpar s) by (apply Rpth_pos; [exact P|apply U, Hs|lra|lra]).
    rewrite fin_inv by lra. rewrite prod_skip2. f_equal. unfold Rpth, Rrho in *.
    pose proof (mmp_pos k s P (us_known _ _ U s Hs)). pose proof Upth_pos. pose proof (Urho_pos k P). pose proof Uv_pos.
    field. repeat split; lra.
Qed.

(* ---------------------------------------------------------------- C16 *)
Lemma dv_antisym (K : consts XR) ions s0 s1 m2q f :
  dv K ions s0 s1 m2q = Ok f ->
  exists g, dv K ions s1 s0 m2q = Ok g /\ forall r i, vcomp i (f r) = aopp (vcomp i (g r)).
Proof.
  unfold dv. rewrite (String.eqb_sym s1 s0). destruct (String.eqb s0 s1); [discriminate|].
  intros H. apply bind_ok in H as [v0 [H0 H]]. apply bind_ok in H as [v1 [H1 H]]. inversion H; subst; clear H.
  rewrite H1. cbn [bind]. rewrite H0. cbn [bind]. eexists; split; [reflexivity|].
  intros r i. unfold vsub, vbuild, vcomp. destruct (v0 r) as [[a b] c], (v1 r) as [[a' b'] c'].
  destruct i as [|[|i]]; apply asub_anti.
Qed.

(* ---------------------------------------------------------------- C17 *)
Lemma Rpdv_const_pos k : positive k -> 0 < Rpdv_const k.
Proof.
  intros P. unfold Rpdv_const, Rdiv. pose proof (Urho_pos k P). pose proof Uv_pos. pose proof Upth_pos.
  apply Rmult_lt_0_compat; [|apply Rinv_0_lt_compat; assumption].
  apply Rmult_lt_0_compat; [lra|nra].
Qed.
Lemma pdynamic_many ions names k args r n vx vy vz p :
  positive k -> usable ions names -> (1 < List.length names)%nat ->
  (args = [PStr (join "+" names)] \/ args = map PStr names) ->
  (forall s, In s names -> r ("n", "", s) = Fin (n s) /\ 0 < n s) ->
  (forall s, In s names -> has_v r s (vx s) (vy s) (vz s)) ->
  plain (pdynamic (kx k) ions args false) r p ->
  let rho := fun s => n s * mmp k s in
  let mean := fun v => Rsum (map (fun s => v s * rho s) names) / Rsum (map rho names) in
  p * Upth = 1 / 2 * Urho k * Uv ^ 2 *
    ((Rsum (map (fun s => (vx s * vx s + vy s * vy s + vz s * vz s) * rho s) names))
     - (mean vx * mean vx + mean vy * mean vy + mean vz * mean vz) * Rsum (map rho names)) /\
  0 <= p /\
  (p = 0 <-> forall s t, In s names -> In t names -> vx s = vx t /\ vy s = vy t /\ vz s = vz t).
Proof.
  intros P U L Ha Hn Hv Hp. cbv zeta.
  assert (W : forall s, In s names -> 0 < n s * mmp k s).
  { intros s Hs. apply Rmult_lt_0_compat; [apply Hn, Hs|apply mmp_pos; [exact P|apply U, Hs]]. }
  pose proof (Rsum_pos_cons _ names (us_ne _ _ U) W) as WP.
  assert (WNZ : Rsum (map (fun s => n s * mmp k s) names) <> 0) by lra.
  rewrite (plain_fun _ _ _ _ Hp (pdynamic_val k ions names args r n vx vy vz U L Ha
             (fun s Hs => proj1 (Hn s Hs)) Hv WNZ)).
  pose proof (Rpdv_const_pos k P) as PC. split; [|split].
  - set (w := fun s => n s * mmp k s) in *.
    assert (E : Rdrift w vx vy vz names =
       Rsum (map (fun s => (vx s * vx s + vy s * vy s + vz s * vz s) * w s) names)
       - (Rmean w vx names * Rmean w vx names + Rmean w vy names * Rmean w vy names
          + Rmean w vz names * Rmean w vz names) * Rsum (map w names)).
    { unfold Rdrift.
      rewrite (map_ext (fun s => ((vx s - Rmean w vx names) * (vx s - Rmean w vx names) + (vy s - Rmean w vy names) * (vy s - Rmean w vy names) + (vz s - Rmean w vz names) * (vz s - Rmean w vz names)) * w s)
         (fun s => ((vx s - Rmean w vx names) * (vx s - Rmean w vx names) * w s + (vy s - Rmean w vy names) * (vy s - Rmean w vy names) * w s) + (vz s - Rmean w vz names) * (vz s - Rmean w vz names) * w s))
        by (intros s; ring).
      rewrite (map_ext (fun s => (vx s * vx s + vy s * vy s + vz s * vz s) * w s)
         (fun s => (vx s * vx s * w s + vy s * vy s * w s) + vz s * vz s * w s)) by (intros s; ring).
      rewrite !Rsum_map_plus, !drift_one by exact WNZ. ring. }
    fold (Rmean w vx names). fold (Rmean w vy names). fold (Rmean w vz names).
    rewrite E. unfold Rpdv_const. pose proof Upth_pos.
    unfold Rmean, w in *. cbv beta in *. field. lra.
  - apply Rmult_le_pos; [|lra]. apply Rdrift_nonneg. intros s Hs. left. apply W, Hs.
  - rewrite <- (Rdrift_zero (fun s => n s * mmp k s) vx vy vz names W (us_ne _ _ U)). split.
    + intros H. apply Rmult_integral in H. destruct H; [assumption|lra].
    + intros ->. ring.
Qed.

Lemma pdynamic_two ions s0 s1 k args r n vx vy vz p :
  positive k -> usable ions [s0; s1] ->
  (args = [PStr (join "+" [s0; s1])] \/ args = [PStr s0; PStr s1]) ->
  (forall s, In s [s0; s1] -> r ("n", "", s) = Fin (n s) /\ 0 < n s) ->
  (forall s, In s [s0; s1] -> has_v r s (vx s) (vy s) (vz s)) ->
  plain (pdynamic (kx k) ions args false) r p ->
  let rho := fun s => n s * mmp k s in
  p * Upth = 1 / 2 * (rho s0 * rho s1 / (rho s0 + rho s1) * Urho k)
             * (((vx s0 - vx s1) ^ 2 + (vy s0 - vy s1) ^ 2 + (vz s0 - vz s1) ^ 2) * Uv ^ 2) /\
  0 <= p /\ (p = 0 <-> vx s0 = vx s1 /\ vy s0 = vy s1 /\ vz s0 = vz s1).
Proof.
  intros P U Ha Hn Hv Hp. cbv zeta.
  assert (L : (1 < List.length [s0; s1])%nat) by (simpl; lia).
  destruct (pdynamic_many ions [s0; s1] k args r n vx vy vz p P U L Ha Hn Hv Hp) as (_ & H2 & H3).
  assert (W : forall s, In s [s0; s1] -> 0 < n s * mmp k s).
  { intros s Hs. apply Rmult_lt_0_compat; [apply Hn, Hs|apply mmp_pos; [exact P|apply U, Hs]]. }
  pose proof (W s0 (or_introl eq_refl)) as W0. pose proof (W s1 (or_intror (or_introl eq_refl))) as W1.
  split; [|split; [exact H2|]].
  - assert (NZ : Rsum (map (fun s => n s * mmp k s) [s0; s1]) <> 0) by (simpl; lra).
    rewrite (plain_fun _ _ _ _ Hp (pdynamic_val k ions [s0; s1] args r n vx vy vz U L Ha
               (fun s Hs => proj1 (Hn s Hs)) Hv NZ)).
    rewrite Rdrift_two by lra. unfold Rpdv_const. pose proof Upth_pos. field. lra.
  - rewrite H3. split.
    + intros H. apply H; simpl; auto.
    + intros (A & B & C) s t [<-|[<-|[]]] [<-|[<-|[]]]; auto.
Qed.

(* ---------------------------------------------------------------- C18 *)
Lemma sound_speed_law ions names k r n w p c :
  positive k -> usable ions names ->
  (forall s, In s names -> r ("n", "", s) = Fin (n s) /\ 0 < n s) ->
  (forall s, In s names -> r ("w", "scalar", s) = Fin (w s)) ->
  returns (pth (kx k) ions [PStr (join "+" names)] "scalar") r p ->
  returns (sound_speed (kx k) ions [PStr (join "+" names)]) r c ->
  let rho := Rsum (map (fun s => n s * mmp k s) names) in
  0 <= c /\ (c * Uv) ^ 2 * (rho * Urho k) = 5 / 3 * (p * Upth).
Proof.
  intros P U Hn Hw Hp Hc. cbv zeta.
  assert (W : 0 < Rsum (map (fun s => n s * mmp k s) names)).
  { apply Rsum_pos_cons; [apply U|]. intros s Hs.
    apply Rmult_lt_0_compat; [apply Hn, Hs|apply mmp_pos; [exact P|apply U, Hs]]. }
  assert (HP : 0 <= Rsum (map (fun s => Rpth k (n s) (w s) s) names)).
  { apply Rsum_nonneg. intros y Hy. apply in_map_iff in Hy as [s [<- Hs]].
    apply Rpth_nonneg; [exact P|apply U, Hs|left; apply Hn, Hs]. }
  rewrite (returns_fun _ _ _ _ Hp (pth_total_val ions names k _ r n w U (fun s Hs => proj1 (Hn s Hs)) Hw)).
  rewrite (returns_fun _ _ _ _ Hc (cs_total_val ions names k r n w P U (fun s Hs => proj1 (Hn s Hs)) Hw W HP)).
  pose proof Uv_pos. pose proof Upth_pos. pose proof (Urho_pos k P).
  set (RHO := Rsum (map (fun s => n s * mmp k s) names)) in *.
  set (PP := Rsum (map (fun s => Rpth k (n s) (w s) s) names)) in *.
  assert (0 <= PP * Upth / (RHO * Urho k) * (5 / 3)).
  { apply Rmult_le_pos; [|lra]. unfold Rdiv. apply Rmult_le_pos; [apply Rmult_le_pos; lra|].
    left. apply Rinv_0_lt_compat. apply Rmult_lt_0_compat; assumption. }
  split.
  - unfold Rdiv at 1. apply Rmult_le_pos; [apply sqrt_pos|]. left. apply Rinv_0_lt_compat; assumption.
  - set (Q := sqrt (PP * Upth / (RHO * Urho k) * (5 / 3))).
    replace ((Q / Uv * Uv) ^ 2) with (Q * Q) by (field; lra).
    unfold Q. rewrite sqrt_sqrt by assumption. field. lra.
Qed.

(* ---------------------------------------------------------------- C19 *)
Lemma ca_facts ions names k r n bx by' bz c :
  positive k -> usable ions names ->
  (forall s, In s names -> r ("n", "", s) = Fin (n s) /\ 0 < n s) -> has_b r bx by' bz ->
  returns (ca (kx k) ions [PStr (join "+" names)]) r c ->
  0 < Rsum (map (fun s => n s * mmp k s) names) /\ 0 < Rca_coeff k /\
  c = / sqrt (Rsum (map (fun s => n s * mmp k s) names)) * sqrt (bx * bx + by' * by' + bz * bz) * Rca_coeff k.
Proof.
  intros P U Hn Hb Hc.
  assert (W : 0 < Rsum (map (fun s => n s * mmp k s) names)).
  { apply Rsum_pos_cons; [apply U|]. intros s Hs.
    apply Rmult_lt_0_compat; [apply Hn, Hs|apply mmp_pos; [exact P|apply U, Hs]]. }
  split; [exact W|]. split.
  - unfold Rca_coeff, Rdiv. pose proof Ub_pos. pose proof Uv_pos. pose proof (Urho_pos k P). destruct P.
    apply Rmult_lt_0_compat; [assumption|]. apply Rinv_0_lt_compat.
    apply Rmult_lt_0_compat; [|assumption]. apply sqrt_lt_R0. apply Rmult_lt_0_compat; assumption.
  - exact (returns_fun _ _ _ _ Hc (ca_total_val ions names k r n _ _ _ P U (fun s Hs => proj1 (Hn s Hs)) Hb W)).
Qed.

Lemma ca_law ions names k r n bx by' bz c :
  positive k -> usable ions names ->
  (forall s, In s names -> r ("n", "", s) = Fin (n s) /\ 0 < n s) -> has_b r bx by' bz ->
  returns (ca (kx k) ions [PStr (join "+" names)]) r c ->
  let rho := Rsum (map (fun s => n s * mmp k s) names) in
  0 <= c /\ (c * Uv) ^ 2 * (c_mu0 k * (rho * Urho k)) = (bx ^ 2 + by' ^ 2 + bz ^ 2) * Ub ^ 2.
Proof.
  intros P U Hn Hb Hc. cbv zeta.
  destruct (ca_facts _ _ _ _ _ _ _ _ _ P U Hn Hb Hc) as (W & PC & ->).
  set (RHO := Rsum (map (fun s => n s * mmp k s) names)) in *.
  assert (SR : 0 < sqrt RHO) by (apply sqrt_lt_R0, W).
  split.
  - apply Rmult_le_pos; [|lra]. apply Rmult_le_pos; [|apply sqrt_pos]. left. apply Rinv_0_lt_compat, SR.
  - unfold Rca_coeff. pose proof (Urho_pos k P) as PR. pose proof Uv_pos. pose proof Ub_pos. destruct P.
    assert (PM : 0 < Urho k * c_mu0 k) by (apply Rmult_lt_0_compat; assumption).
    assert (SM : 0 < sqrt (Urho k * c_mu0 k)) by (apply sqrt_lt_R0, PM).
    set (B := sqrt (bx * bx + by' * by' + bz * bz)).
    assert (HB : B * B = bx * bx + by' * by' + bz * bz) by (apply sqrt_sqrt; nra).
    set (M := sqrt (Urho k * c_mu0 k)) in *.
    assert (HM : M * M = Urho k * c_mu0 k) by (apply sqrt_sqrt; lra).
    set (Q := sqrt RHO) in *.
    assert (HQ : Q * Q = RHO) by (apply sqrt_sqrt; lra).
    replace (c_mu0 k * (RHO * Urho k)) with ((Q * Q) * (M * M)) by (rewrite HQ, HM; ring).
    replace ((bx ^ 2 + by' ^ 2 + bz ^ 2) * Ub ^ 2) with (B * B * (Ub * Ub)) by (rewrite HB; ring).
    field. repeat split; lra.
Qed.

Lemma ca_scaling ions names k r r' n bx by' bz q c c' :
  positive k -> usable ions names ->
  (forall s, In s names -> r ("n", "", s) = Fin (n s) /\ r' ("n", "", s) = Fin (n s) /\ 0 < n s) ->
  has_b r bx by' bz -> has_b r' (q * bx) (q * by') (q * bz) ->
  returns (ca (kx k) ions [PStr (join "+" names)]) r c ->
  returns (ca (kx k) ions [PStr (join "+" names)]) r' c' -> c' = Rabs q * c.
Proof.
  intros P U Hn Hb Hb' Hc Hc'.
  destruct (ca_facts _ _ _ _ n _ _ _ _ P U (fun s Hs => conj (proj1 (Hn s Hs)) (proj2 (proj2 (Hn s Hs)))) Hb Hc) as (_ & _ & ->).
  destruct (ca_facts _ _ _ _ n _ _ _ _ P U (fun s Hs => proj2 (Hn s Hs)) Hb' Hc') as (_ & _ & ->).
  replace (q * bx * (q * bx) + q * by' * (q * by') + q * bz * (q * bz))
    with ((q * q) * (bx * bx + by' * by' + bz * bz)) by ring.
  rewrite sqrt_mult_alt by nra.
  change (q * q) with (Rsqr q). rewrite sqrt_Rsqr_abs. ring.
Qed.

Lemma Rsum_incl (f : string -> R) l1 l2 :
  NoDup l1 -> NoDup l2 -> incl l1 l2 -> (forall s, In s l2 -> 0 <= f s) ->
  Rsum (map f l1) <= Rsum (map f l2).
Proof.
  revert l2. induction l1 as [|x l1 IH]; intros l2 N1 N2 HI Hf; simpl.
  - apply Rsum_nonneg. intros y Hy. apply in_map_iff in Hy as [s [<- Hs]]. auto.
  - assert (Hx : In x l2) by (apply HI; left; reflexivity).
    apply in_split in Hx as (a & b & ->).
    rewrite map_app, Rsum_app. simpl.
    inversion N1 as [|? ? Nx N1']; subst.
    assert (H : Rsum (map f l1) <= Rsum (map f (a ++ b)%list)).
    { apply IH; auto.
      - eapply NoDup_remove_1; exact N2.
      - intros y Hy. assert (In y (a ++ x :: b)) by (apply HI; right; exact Hy).
        apply in_app_or in H as [H|[H|H]]; apply in_or_app; auto. subst. contradiction.
      - intros s Hs. apply Hf. apply in_app_or in Hs as [Hs|Hs]; apply in_or_app; simpl; auto. }
    rewrite map_app, Rsum_app in H. lra.
Qed.

Lemma ca_decreasing ions names names' k r r' n n' bx by' bz c c' :
  positive k -> usable ions names -> usable ions names' -> incl names names' ->
  (forall s, In s names -> r ("n", "", s) = Fin (n s) /\ 0 < n s /\ n s <= n' s) ->
  (forall s, In s names' -> r' ("n", "", s) = Fin (n' s) /\ 0 < n' s) ->
  has_b r bx by' bz -> has_b r' bx by' bz ->
  returns (ca (kx k) ions [PStr (join "+" names)]) r c ->
  returns (ca (kx k) ions [PStr (join "+" names')]) r' c' -> c' <= c.
Proof.
  intros P U U' HI Hn Hn' Hb Hb' Hc Hc'.
  destruct (ca_facts _ _ _ _ n _ _ _ _ P U (fun s Hs => conj (proj1 (Hn s Hs)) (proj1 (proj2 (Hn s Hs)))) Hb Hc) as (W & PC & ->).
  destruct (ca_facts _ _ _ _ n' _ _ _ _ P U' Hn' Hb' Hc') as (W' & _ & ->).
  apply Rmult_le_compat_r; [lra|]. apply Rmult_le_compat_r; [apply sqrt_pos|].
  apply Rinv_le_contravar; [apply sqrt_lt_R0, W|]. apply sqrt_le_1_alt.
  apply Rle_trans with (Rsum (map (fun s => n' s * mmp k s) names)).
  - apply Rsum_le. intros s Hs. apply Rmult_le_compat_r; [|apply Hn, Hs].
    left. apply mmp_pos; [exact P|apply U, Hs].
  - apply Rsum_incl; try apply U; try apply U'; [exact HI|].
    intros s Hs. apply Rmult_le_pos; [left; apply Hn', Hs|]. left. apply mmp_pos; [exact P|apply U', Hs].
Qed.

(* ---------------------------------------------------------------- C20 *)
Lemma afsq_law ions names k r n wpar wper bx by' bz bpar bper a :
  positive k -> usable ions names ->
  (forall s, In s names -> r ("n", "", s) = Fin (n s)) ->
  (forall s, In s names -> r ("w", "par", s) = Fin (wpar s)) ->
  (forall s, In s names -> r ("w", "per", s) = Fin (wper s)) ->
  has_b r bx by' bz -> 0 < bx ^ 2 + by' ^ 2 + bz ^ 2 ->
  returns (beta (kx k) ions [PStr (join "+" names)] "par") r bpar ->
  returns (beta (kx k) ions [PStr (join "+" names)] "per") r bper ->
  returns (afsq (kx k) ions [PStr (join "+" names)] false) r a ->
  a = 1 + (bper - bpar) / 2.
Proof.
  intros P U Hn Ha He Hb Hpos H1 H2 H3.
  assert (Hnz : bx * bx + by' * by' + bz * bz <> 0) by nra.
  rewrite (returns_fun _ _ _ _ H1 (beta_total_val ions names k _ r n wpar _ _ _ U Hn Ha Hb Hnz)).
  rewrite (returns_fun _ _ _ _ H2 (beta_total_val ions names k _ r n wper _ _ _ U Hn He Hb Hnz)).
  rewrite (returns_fun _ _ _ _ H3 (afsq_total_val ions names k r n wpar wper _ _ _ U Hn Ha He Hb Hnz)).
  unfold Rbeta_coeff, Rafsq_coeff. pose proof Ub_pos. field. split; [lra|exact Hnz].
Qed.

Lemma afsq_additive ions names k r n wpar wper bx by' bz :
  usable ions names ->
  (forall s, In s names -> r ("n", "", s) = Fin (n s)) ->
  (forall s, In s names -> r ("w", "par", s) = Fin (wpar s)) ->
  (forall s, In s names -> r ("w", "per", s) = Fin (wper s)) ->
  has_b r bx by' bz -> 0 < bx ^ 2 + by' ^ 2 + bz ^ 2 ->
  exists a : string -> R,
    (forall s, In s names -> returns (afsq (kx k) ions [PStr s] false) r (a s)) /\
    returns (afsq (kx k) ions [PStr (join "+" names)] false) r (1 + Rsum (map (fun s => a s - 1) names)) /\
    ((forall s, In s names -> wpar s = wper s) ->
       returns (afsq (kx k) ions [PStr (join "+" names)] false) r 1).
Proof.
  intros U Hn Ha He Hb Hpos.
  assert (Hnz : bx * bx + by' * by' + bz * bz <> 0) by nra.
  exists (fun s => 1 + (Rpth k (n s) (wper s) s - Rpth k (n s) (wpar s) s)
                    / (bx * bx + by' * by' + bz * bz) * Rafsq_coeff k).
  pose proof (afsq_total_val ions names k r n wpar wper _ _ _ U Hn Ha He Hb Hnz) as HT.
  split; [|split].
  - intros s Hs.
    pose proof (afsq_total_val ions [s] k r n wpar wper bx by' bz (usable_sub _ _ _ U Hs)) as H.
    simpl in H. rewrite !Rplus_0_r in H. apply H; auto; intros t [<-|[]]; auto.
  - replace (1 + Rsum (map (fun s => 1 + (Rpth k (n s) (wper s) s - Rpth k (n s) (wpar s) s)
                    / (bx * bx + by' * by' + bz * bz) * Rafsq_coeff k - 1) names))
      with (1 + (Rsum (map (fun s => Rpth k (n s) (wper s) s) names)
          - Rsum (map (fun s => Rpth k (n s) (wpar s) s) names))
         / (bx * bx + by' * by' + bz * bz) * Rafsq_coeff k); [exact HT|].
    f_equal. clear - Hnz. induction names as [|x l IH]; simpl; [field; exact Hnz|].
    rewrite <- IH. field. exact Hnz.
  - intros Hiso.
    replace 1 with (1 + (Rsum (map (fun s => Rpth k (n s) (wper s) s) names)
          - Rsum (map (fun s => Rpth k (n s) (wpar s) s) names))
         / (bx * bx + by' * by' + bz * bz) * Rafsq_coeff k); [exact HT|].
    rewrite (map_ext_in (fun s => Rpth k (n s) (wpar s) s) (fun s => Rpth k (n s) (wper s) s))
      by (intros s Hs; rewrite (Hiso s Hs); reflexivity).
    field. exact Hnz.
Qed.

Lemma caani_law ions names k r n wpar wper bx by' bz c a :
  positive k -> usable ions names ->
  (forall s, In s names -> r ("n", "", s) = Fin (n s) /\ 0 < n s) ->
  (forall s, In s names -> r ("w", "par", s) = Fin (wpar s)) ->
  (forall s, In s names -> r ("w", "per", s) = Fin (wper s)) ->
  has_b r bx by' bz -> 0 < bx ^ 2 + by' ^ 2 + bz ^ 2 ->
  returns (ca (kx k) ions [PStr (join "+" names)]) r c ->
  returns (afsq (kx k) ions [PStr (join "+" names)] false) r a ->
  exists f, caani (kx k) ions [PStr (join "+" names)] false = Ok f /\
    (0 <= a -> exists x, f r = Fin x /\ 0 <= x /\ x ^ 2 = c ^ 2 * a) /\
    (a < 0 -> f r = NaN).
Proof.
  intros P U Hn Ha He Hb Hpos Hc Hafsq.
  assert (Hc0 : 0 <= c).
  { destruct (ca_law _ _ _ _ _ _ _ _ _ P U Hn Hb Hc) as [H _]. exact H. }
  unfold caani. rewrite chk_join by apply U. cbn [bind].
  assert (HS : usable ions (sort_str names)).
  { destruct U. split.
    - apply sort_nonempty; assumption.
    - apply sort_NoDup; assumption.
    - intros s Hs; rewrite sort_In in Hs; auto.
    - intros s Hs; rewrite sort_In in Hs; auto.
    - intros s Hs; rewrite sort_In in Hs; auto. }
  assert (E1 : ca (kx k) ions [PStr (join "+" (sort_str names))] = ca (kx k) ions [PStr (join "+" names)]).
  { unfold ca. rewrite (mass_density_total k HS), (mass_density_total k U), sort_idem. reflexivity. }
  assert (E2 : afsq (kx k) ions [PStr (join "+" (sort_str names))] false = afsq (kx k) ions [PStr (join "+" names)] false).
  { unfold afsq. rewrite !(pth_total k _ HS), !(pth_total k _ U), sort_idem. reflexivity. }
  rewrite E1, E2.
  destruct Hc as (f & Ef & Fr). destruct Hafsq as (g & Eg & Gr). rewrite Ef, Eg. cbn [bind].
  eexists; split; [reflexivity|]. cbv beta. rewrite Fr, Gr. split.
  - intros H. rewrite fin_sqrt, fin_mul by exact H. eexists; split; [reflexivity|]. split.
    + apply Rmult_le_pos; [exact Hc0|apply sqrt_pos].
    + replace ((c * sqrt a) ^ 2) with (c ^ 2 * (sqrt a * sqrt a)) by ring. rewrite sqrt_sqrt by exact H. reflexivity.
  - intros H.
    assert (E : asqrt (Fin a) = NaN).
    { change (xsqrt (Fin a) = NaN). unfold xsqrt. apply Rltb_true in H. rewrite H. reflexivity. }
    rewrite E. apply nan_mul_r.
Qed.

(* ---------------------------------------------------------------- C22 *)
Lemma nuc_same k erf ions s both : usable ions [s] -> nuc (kx k) ions erf s s both = Err NotImplementedError.
Proof.
  intros U. assert (L : legal s) by (apply U; left; reflexivity). assert (I : In s ions) by (apply U; left; reflexivity).
  destruct (us_known _ _ U s (or_introl eq_refl)) as [x Hx].
  unfold nuc. rewrite two_single_ok by assumption. cbn [bind]. rewrite (get_kind_some _ _ Hx). cbn [bind].
  unfold lnlambda. rewrite two_single_ok by assumption. cbn [bind]. rewrite (get_kind_some _ _ Hx). cbn [bind].
  unfold get_ion. apply mem_str_In in I. rewrite I. rewrite ion_temp_ok by (exists x; exact Hx). cbn [bind].
  unfold dv. rewrite String.eqb_refl. reflexivity.
Qed.

Lemma nuc_totals (K : consts XR) erf ions names s both :
  usable ions names -> (1 < List.length names)%nat -> legal s -> In s ions ->
  nuc K ions erf (join "+" names) s both = Err ValueError /\
  nuc K ions erf s (join "+" names) both = Err ValueError.
Proof.
  intros U L Hl Hi. unfold nuc, two_single.
  rewrite chk_join by apply U. rewrite chk_one by assumption. cbn [bind].
  destruct (sort_two_up names L) as (x & y & l & E). rewrite E. split; reflexivity.
Qed.

Lemma nuc_both k erf erfR ions sa sb r na nb wsa wsb wpa wpb ax ay az bx by' bz :
  positive k -> consistent k -> usable ions [sa] -> usable ions [sb] -> sa <> sb ->
  0 < zcharge sa -> 0 < zcharge sb -> (forall x, erf (Fin x) = Fin (erfR x)) ->
  r ("n", "", sa) = Fin na -> r ("n", "", sb) = Fin nb ->
  r ("w", "scalar", sa) = Fin wsa -> r ("w", "scalar", sb) = Fin wsb ->
  r ("w", "par", sa) = Fin wpa -> r ("w", "par", sb) = Fin wpb ->
  has_v r sa ax ay az -> has_v r sb bx by' bz ->
  0 < na -> 0 < nb -> 0 < wsa -> 0 < wsb -> 0 < wpa -> 0 < wpb ->
  0 < (ax - bx) ^ 2 + (ay - by') ^ 2 + (az - bz) ^ 2 ->
  exists nuab nuba,
    plain (nuc (kx k) ions erf sa sb false) r nuab /\
    plain (nuc (kx k) ions erf sb sa false) r nuba /\
    plain (nuc (kx k) ions erf sa sb true) r (nuab + nuba) /\
    plain (nuc (kx k) ions erf sb sa true) r (nuab + nuba).
Proof.
  intros P C Ua Ub Hne Za Zb Herf Hna Hnb Hwsa Hwsb Hwpa Hwpb Hva Hvb Pna Pnb Pwsa Pwsb Pwpa Pwpb Pd.
  assert (PD : 0 < Rdist ax ay az bx by' bz).
  { unfold Rdist. apply sqrt_lt_R0. lra. }
  assert (PD' : 0 < Rdist bx by' bz ax ay az) by (rewrite Rdist_sym; exact PD).
  assert (Ka : known sa) by (apply Ua; left; reflexivity).
  assert (Kb : known sb) by (apply Ub; left; reflexivity).
  pose proof (fun b => nuc_val k erf erfR ions sa sb b r na nb wsa wsb wpa wpb ax ay az bx by' bz
     P Ua Ub Hne Za Zb Herf Hna Hnb Hwsa Hwsb Hwpa Hwpb Hva Hvb Pna Pnb Pwsa Pwsb Pwpa Pwpb PD) as AB.
  pose proof (fun b => nuc_val k erf erfR ions sb sa b r nb na wsb wsa wpb wpa bx by' bz ax ay az
     P Ub Ua (fun E => Hne (eq_sym E)) Zb Za Herf Hnb Hna Hwsb Hwsa Hwpb Hwpa Hvb Hva Pnb Pna Pwsb Pwsa Pwpb Pwpa PD') as BA.
  rewrite (Rdist_sym bx by' bz ax ay az), (Rlnlambda_sym k sb sa) in BA. cbv zeta in AB, BA.
  set (L := Rlnlambda k sa sb na wsa nb wsb) in *. set (D := Rdist ax ay az bx by' bz) in *.
  assert (E : Rnuab k erfR sa sb L nb wpa wpb D * (na * mmp k sa / (nb * mmp k sb)) = Rnuab k erfR sb sa L na wpb wpa D).
  { unfold Rnuab, Rdvw. rewrite (Rwab_sym wpb wpa).
    set (LDR := Rldr _ _). clearbody LDR. set (W := / (Rwab wpa wpb * Rwab wpa wpb * Rwab wpa wpb)). clearbody W.
    rewrite (consistent_mass k sa C Ka), (consistent_mass k sb C Kb).
    pose proof (mmp_pos k sa P Ka). pose proof (mmp_pos k sb P Kb). pose proof Uq_pos.
    destruct P. pose proof PI_RGT_0. field. repeat split; try lra;
    apply Rgt_not_eq; rewrite <- Rmult_plus_distr_r; apply Rmult_lt_0_compat; lra. }
  exists (Rnuab k erfR sa sb L nb wpa wpb D), (Rnuab k erfR sb sa L na wpb wpa D).
  split; [exact (AB false)|]. split; [exact (BA false)|]. split.
  - rewrite <- E. exact (AB true).
  - assert (E' : Rnuab k erfR sa sb L nb wpa wpb D + Rnuab k erfR sb sa L na wpb wpa D
       = Rnuab k erfR sb sa L na wpb wpa D + Rnuab k erfR sb sa L na wpb wpa D * (nb * mmp k sb / (na * mmp k sa))).
    { rewrite <- E at 1. exact (Rnuab_sym k erfR sa sb L na nb wpa wpb D P C Ka Kb Pna Pnb). }
    rewrite E'. exact (BA true).
Qed.

(* ---------------------------------------------------------------- C23 *)
Lemma electron_ref_iff species :
  (exists t, electron_ref species = Ok t) <->
  ~ In "e" species /\ ((In "p" species /\ ~ In "p1" species) \/ (In "p1" species /\ ~ In "p" species)).
Proof.
  unfold electron_ref. rewrite <- !mem_str_In.
  destruct (mem_str "e" species), (mem_str "p" species), (mem_str "p1" species);
    split; try (intros [t H]; discriminate); intuition (try congruence); eauto.
Qed.

Lemma zcharge_e : zcharge "e" = -1. Proof. reflexivity. Qed.
Lemma ion_charge_pos s : known s -> s <> "e" -> 0 < zcharge s.
Proof.
  intros [x Hx] Hne. unfold zcharge, of_kind. rewrite Hx. unfold species_kind in Hx.
  destruct (mem_str s _); [inversion Hx; simpl; lra|].
  destruct (mem_str s _); [inversion Hx; simpl; lra|].
  destruct (String.eqb_spec s "e"); [contradiction|discriminate].
Qed.
Lemma electron_ref_noe species t : electron_ref species = Ok t -> ~ In "e" species.
Proof.
  intros H. apply electron_ref_iff. eauto.
Qed.
Lemma Rcharge_pos ions species t n :
  usable ions species -> electron_ref species = Ok t -> (forall s, In s species -> 0 < n s) -> 0 < Rcharge n species.
Proof.
  intros U Ht Hn. unfold Rcharge. apply Rsum_pos_cons; [apply U|]. intros s Hs.
  apply Rmult_lt_0_compat; [auto|]. apply ion_charge_pos; [apply U, Hs|].
  intros ->. exact (electron_ref_noe _ _ Ht Hs).
Qed.

Lemma electrons_neutral ions species k t r n vx vy vz wp :
  positive k -> usable ions species -> electron_ref species = Ok t ->
  (forall s, In s species -> r ("n", "", s) = Fin (n s) /\ 0 < n s) ->
  (forall s, In s species -> has_v r s (vx s) (vy s) (vz s)) -> r ("w", "scalar", t) = Fin wp ->
  let charge := fun s => zcharge s * n s in
  exists f ne ex ey ez we,
    estimate_electrons (kx k) ions species = Ok f /\
    f r = {| el_n := Fin ne; el_v := (Fin ex, Fin ey, Fin ez); el_w := Fin we |} /\
    0 < ne /\
    Rsum (map charge species) + zcharge "e" * ne = 0 /\
    Rsum (map (fun s => charge s * vx s) species) + zcharge "e" * ne * ex = 0 /\
    Rsum (map (fun s => charge s * vy s) species) + zcharge "e" * ne * ey = 0 /\
    Rsum (map (fun s => charge s * vz s) species) + zcharge "e" * ne * ez = 0.
Proof.
  intros P U Ht Hn Hv Hw. cbv zeta.
  pose proof (Rcharge_pos ions species t n U Ht (fun s Hs => proj2 (Hn s Hs))) as Hp.
  destruct (electron_ref_in _ _ Ht) as [Hin _].
  destruct (electrons_val k ions species t r n vx vy vz wp P U Ht (fun s Hs => proj1 (Hn s Hs)) Hv Hw Hp
              (Rlt_le _ _ (proj2 (Hn t Hin)))) as (f & Ef & Fr).
  eexists f, _, _, _, _, _. split; [exact Ef|]. split; [exact Fr|]. split; [exact Hp|].
  rewrite zcharge_e.
  assert (EC : Rsum (map (fun s => zcharge s * n s) species) = Rcharge n species).
  { unfold Rcharge. f_equal. apply map_ext. intros s; ring. }
  assert (EV : forall v, Rsum (map (fun s => zcharge s * n s * v s) species) = Rcurrent n v species).
  { intros v. unfold Rcurrent. f_equal. apply map_ext. intros s; ring. }
  rewrite EC, !EV. repeat split; field; lra.
Qed.

(* ---------------------------------------------------------------- C24 *)
Lemma electron_temperature ions species k t r n vx vy vz wp :
  positive k -> consistent k -> usable ions species ->
  electron_ref species = Ok t ->
  (forall s, In s species -> r ("n", "", s) = Fin (n s) /\ 0 < n s) ->
  (forall s, In s species -> has_v r s (vx s) (vy s) (vz s)) -> r ("w", "scalar", t) = Fin wp -> 0 <= wp ->
  exists f e ne we,
    estimate_electrons (kx k) ions species = Ok f /\ f r = e /\ el_n e = Fin ne /\ el_w e = Fin we /\
    ne * Rtemp k we "e" = n t * Rtemp k wp t /\
    (Rtemp k we "e" = Rtemp k wp t <-> ne = n t \/ wp = 0).
Proof.
  intros P C U Ht Hn Hv Hw Hwp.
  pose proof (Rcharge_pos ions species t n U Ht (fun s Hs => proj2 (Hn s Hs))) as Hp.
  destruct (electron_ref_in _ _ Ht) as [Hin Htp].
  pose proof (proj2 (Hn t Hin)) as Pnt.
  destruct (electrons_val k ions species t r n vx vy vz wp P U Ht (fun s Hs => proj1 (Hn s Hs)) Hv Hw Hp
              (Rlt_le _ _ Pnt)) as (f & Ef & Fr).
  eexists f, _, _, _. split; [exact Ef|]. split; [exact Fr|]. split; [reflexivity|]. split; [reflexivity|].
  assert (Mt : mass k t = c_mp k).
  { destruct Htp as [-> | ->]; reflexivity. }
  assert (Me : mass k "e" = c_me_mp k * c_mp k) by (destruct C as [_ C]; exact C).
  assert (TT : Rtemp k (sqrt (n t / Rcharge n species * / c_me_mp k * (wp * wp))) "e"
               = n t / Rcharge n species * Rtemp k wp t).
  { unfold Rtemp. rewrite Mt, Me.
    replace (sqrt (n t / Rcharge n species * / c_me_mp k * (wp * wp)) * Uv *
             (sqrt (n t / Rcharge n species * / c_me_mp k * (wp * wp)) * Uv))
      with (sqrt (n t / Rcharge n species * / c_me_mp k * (wp * wp)) *
            sqrt (n t / Rcharge n species * / c_me_mp k * (wp * wp)) * (Uv * Uv)) by ring.
    destruct P. rewrite sqrt_sqrt.
    - pose proof UT_pos. field. lra.
    - apply Rmult_le_pos; [|nra]. apply Rmult_le_pos; [|left; apply Rinv_0_lt_compat; assumption].
      unfold Rdiv. apply Rmult_le_pos; [lra|left; apply Rinv_0_lt_compat; assumption]. }
  rewrite TT. split; [field; lra|].
  assert (TP : Rtemp k wp t = 0 <-> wp = 0).
  { unfold Rtemp. rewrite Mt. pose proof UT_pos as PT. pose proof Uv_pos as PV. destruct P. split.
    - intros H. apply Rmult_integral in H. destruct H as [H|H].
      + exfalso. revert H. apply Rgt_not_eq. unfold Rdiv. apply Rmult_lt_0_compat; [lra|].
        apply Rinv_0_lt_compat. apply Rmult_lt_0_compat; assumption.
      + apply Rmult_integral in H. destruct H as [H|H]; apply Rmult_integral in H; destruct H; lra.
    - intros ->. ring. }
  split.
  - intros H. destruct (Req_dec wp 0) as [E|E]; [right; exact E|]. left.
    assert (NT : Rtemp k wp t <> 0) by (intros H'; apply E, TP, H').
    assert (n t / Rcharge n species = 1).
    { apply (Rmult_eq_reg_r (Rtemp k wp t)); [lra|exact NT]. }
    apply (Rmult_eq_compat_r (Rcharge n species)) in H0. unfold Rdiv in H0.
    rewrite Rmult_assoc, Rinv_l in H0 by lra. lra.
  - intros [H|H].
    + rewrite <- H. field. lra.
    + assert (Z : Rtemp k wp t = 0) by (apply TP, H). rewrite Z. ring.
Qed.

Lemma electron_temperature_refuted :
  exists ions species k t r f ne we wp, positive k /\ consistent k /\ usable ions species /\
    electron_ref species = Ok t /\ r ("w", "scalar", t) = Fin wp /\
    estimate_electrons (kx k) ions species = Ok f /\
    el_n (f r) = Fin ne /\ el_w (f r) = Fin we /\ Rtemp k we "e" <> Rtemp k wp t.
Proof.
  set (n := fun s : string => if String.eqb s "a" then 1 else 20).
  set (r := (fun kk => let '(m, c, s) := kk in if String.eqb m "n" then Fin (n s) else Fin 3) : row XR).
  destruct (electron_temperature ["a"; "p1"] ["a"; "p1"] ex_consistent "p1" r n (fun _ => 3) (fun _ => 3) (fun _ => 3) 3)
    as (f & e & ne & we & Ef & Fr & En & Ew & EQ & IFF); try apply ex_consistent_ok; try exact ap_usable2; try lra; try reflexivity.
  - intros s Hs. split; [reflexivity|]. unfold n. destruct (String.eqb s "a"); lra.
  - intros s Hs. repeat split.
  - exists ["a"; "p1"], ["a"; "p1"], ex_consistent, "p1", r, f, ne, we, 3.
    split; [apply ex_consistent_ok|]. split; [apply ex_consistent_ok|]. split; [exact ap_usable2|].
    split; [reflexivity|]. split; [reflexivity|]. split; [exact Ef|].
    rewrite Fr. split; [exact En|]. split; [exact Ew|].
    assert (EC : Rcharge n ["a"; "p1"] = 22) by (cbv -[Rmult Rplus IZR]; lra).
    intros H. apply IFF in H. destruct H as [H|H]; [|lra].
    destruct (electrons_val ex_consistent ["a"; "p1"] ["a"; "p1"] "p1" r n (fun _ => 3) (fun _ => 3) (fun _ => 3) 3)
      as (f' & Ef' & Fr'); try apply ex_consistent_ok; try exact ap_usable2; try reflexivity.
    + intros s Hs; repeat split.
    + rewrite EC; lra.
    + unfold n. simpl. lra.
    + rewrite Ef in Ef'. inversion Ef'; subst f'. rewrite Fr' in Fr. subst e. cbn [el_n] in En.
      assert (EN : n "p1" = 20) by reflexivity. rewrite H, EN, EC in En. injection En. lra.
Qed.

(* ---------------------------------------------------------------- C88 *)
Lemma wk_raises k ions names : usable ions names ->
  kinetic_energy_flux (kx k) ions [PStr (join "+" names)] = Err AttributeError.
Proof.
  intros U. unfold kinetic_energy_flux. rewrite chk_join by apply U. cbn [bind].
  unfold per_species. rewrite nodup_sort by apply U.
  destruct (sort_str names) as [|s l] eqn:E; [exfalso; exact (sort_nonempty _ (us_ne _ _ U) E)|].
  assert (Hs : In s names).
  { rewrite <- (sort_In s names), E. left; reflexivity. }
  cbn [mapM]. assert (M : mem_str s ions = true) by (apply mem_str_In, U, Hs). rewrite M.
  unfold ion_kinetic_energy_flux. rewrite ion_rho_ok by (apply U, Hs). reflexivity.
Qed.
