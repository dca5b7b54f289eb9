(** Collisions and electrons. *)
From Coq Require Import List String Ascii Bool Arith ZArith Reals Lra Lia Psatz Permutation Sorted.
From Verif Require Import Py PyStr Sort Num Species SpeciesProofs Frame Plasma PlasmaProofs PlasmaProofs2 PlasmaProofs3.
Import ListNotations.
Open Scope string_scope.
Open Scope R_scope.

Lemma xadd_comm x y : aadd x y = aadd y x :> XR.
Proof. destruct x, y; try reflexivity. rewrite !fin_add. f_equal; ring. Qed.
Lemma xmul_comm x y : amul x y = amul y x :> XR.
Proof. destruct x, y; try reflexivity. rewrite !fin_mul. f_equal; ring. Qed.
Lemma fin_tln a : 0 < a -> tln (Fin a) = Fin (ln a).
Proof. intros H. change (xln (Fin a) = Fin (ln a)). unfold xln. apply Rltb_true in H. rewrite H. reflexivity. Qed.
Lemma fin_texp a : texp (Fin a) = Fin (exp a). Proof. reflexivity. Qed.
Lemma fin_tpi : (tpi : XR) = Fin PI. Proof. reflexivity. Qed.
Lemma fin_cube a : acube (Fin a) = Fin (a * a * a).
Proof. unfold acube. rewrite !fin_mul. reflexivity. Qed.
Lemma sum_skip2 a b : sum_skip [Fin a; Fin b] = Fin (a + b).
Proof.
  change [Fin a; Fin b] with (map Fin [a; b]). rewrite sum_skip_fin. f_equal. simpl. ring.
Qed.

(* ----------------------------------------------------------- lnlambda *)
Lemma two_single_swap ions s0 s1 x y :
  two_single ions s0 s1 = Ok (x, y) -> two_single ions s1 s0 = Ok (y, x).
Proof.
  unfold two_single. destruct (chk_species ions [PStr s0]) as [l0|]; [|discriminate].
  destruct (chk_species ions [PStr s1]) as [l1|]; [|discriminate]. simpl.
  destruct l0 as [|a [|]]; try discriminate; destruct l1 as [|b [|]]; try discriminate.
  intros H; inversion H; reflexivity.
Qed.

Lemma lnlambda_sym K ions s0 s1 f :
  lnlambda (T := XR) K ions s0 s1 = Ok f ->
  exists g, lnlambda K ions s1 s0 = Ok g /\ forall r, g r = f r.
Proof.
  unfold lnlambda. intros H. apply bind_ok in H as [[x y] [H2 H]].
  rewrite (two_single_swap _ _ _ _ _ H2). cbn [bind]. cbv beta iota in H |- *.
  apply bind_ok in H as [k0 [Hk0 H]]. apply bind_ok in H as [k1 [Hk1 H]].
  apply bind_ok in H as [t0 [Ht0 H]]. apply bind_ok in H as [t1 [Ht1 H]].
  rewrite Hk0, Hk1. cbn [bind]. rewrite Ht0, Ht1. cbn [bind].
  inversion H; subst; clear H. eexists; split; [reflexivity|]. intros r. cbv zeta.
  rewrite (xmul_comm (z_of k1) (z_of k0)).
  rewrite (xadd_comm (amu_of K k1) (amu_of K k0)).
  rewrite (xadd_comm (amu_of K k1 * (t0 r * u_T * c_kbeV K))%num).
  rewrite (xadd_comm (ion_n y r * u_n * asq (z_of k1) / (t1 r * u_T * c_kbeV K))%num).
  reflexivity.
Qed.

Definition kind_u (k : consts R) (x : kind) : R :=
  match x with KProton => c_up k | KAlpha => c_ua k | KElectron => c_ue k end.
Definition amu (k : consts R) (s : string) : R := of_kind (kind_u k) 0 s.
Lemma amu_fin k x : amu_of (kx k) x = Fin (kind_u k x).
Proof. destruct x; reflexivity. Qed.
Lemma amu_pos k x : positive k -> 0 < kind_u k x.
Proof. intros P. destruct P, x; simpl; assumption. Qed.

Definition RTeV (k : consts R) (w : R) (s : string) : R := Rtemp k w s * UT * c_kbeV k.
Definition Rlnlambda (k : consts R) (s0 s1 : string) (n0 w0 n1 w1 : R) : R :=
  299 / 10 - ln (((zcharge s0 * zcharge s1) * (amu k s0 + amu k s1))
                 / (amu k s0 * RTeV k w1 s1 + amu k s1 * RTeV k w0 s0)
                 * sqrt (n0 * Un * (zcharge s0 * zcharge s0) / RTeV k w0 s0
                         + n1 * Un * (zcharge s1 * zcharge s1) / RTeV k w1 s1)).

Lemma RTeV_pos k w s : positive k -> known s -> 0 < w -> 0 < RTeV k w s.
Proof.
  intros P Hk Hw. unfold RTeV, Rtemp. pose proof (mass_pos k s P Hk). pose proof UT_pos. pose proof Uv_pos.
  destruct P. repeat apply Rmult_lt_0_compat; try assumption; try lra.
  unfold Rdiv. apply Rinv_0_lt_compat. apply Rmult_lt_0_compat; assumption.
Qed.

(** ions: positively charged tabulated species *)
Lemma zcharge_ion s x : species_kind s = Some x -> x <> KElectron -> 0 < kind_z x.
Proof. intros _ H. destruct x; simpl; try lra. congruence. Qed.

Lemma get_kind_some s x : species_kind s = Some x -> get_kind s = Ok x.
Proof. unfold get_kind. intros ->. reflexivity. Qed.

Lemma two_single_ok ions s0 s1 :
  legal s0 -> legal s1 -> In s0 ions -> In s1 ions -> two_single ions s0 s1 = Ok (s0, s1).
Proof.
  intros L0 L1 I0 I1. unfold two_single. rewrite !chk_one by assumption. reflexivity.
Qed.

Lemma Rdiv_1 x : x / 1 = x. Proof. field. Qed.
Lemma lnlambda_val k ions s0 s1 r n0 n1 w0 w1 :
  positive k -> usable ions [s0] -> usable ions [s1] -> 0 < zcharge s0 -> 0 < zcharge s1 ->
  r ("n", "", s0) = Fin n0 -> r ("n", "", s1) = Fin n1 ->
  r ("w", "scalar", s0) = Fin w0 -> r ("w", "scalar", s1) = Fin w1 ->
  0 < n0 -> 0 < n1 -> 0 < w0 -> 0 < w1 ->
  plain (lnlambda (kx k) ions s0 s1) r (Rlnlambda k s0 s1 n0 w0 n1 w1).
Proof.
  intros P U0 U1 Z0 Z1 Hn0 Hn1 Hw0 Hw1 Pn0 Pn1 Pw0 Pw1.
  assert (I0 : In s0 ions) by (apply U0; left; reflexivity).
  assert (I1 : In s1 ions) by (apply U1; left; reflexivity).
  assert (K0 : known s0) by (apply U0; left; reflexivity).
  assert (K1 : known s1) by (apply U1; left; reflexivity).
  pose proof K0 as [x0 E0]. pose proof K1 as [x1 E1].
  unfold lnlambda. rewrite two_single_ok; try assumption;
    [|apply U0; left; reflexivity|apply U1; left; reflexivity].
  cbn [bind]. cbv beta iota. rewrite (get_kind_some _ _ E0), (get_kind_some _ _ E1). cbn [bind].
  unfold get_ion. apply mem_str_In in I0. apply mem_str_In in I1. rewrite I0, I1.
  rewrite !ion_temp_ok by assumption. cbn [bind].
  eexists; split; [reflexivity|]. cbv zeta beta.
  rewrite (temp_fun_fin k "scalar" s0 r w0 P Hw0), (temp_fun_fin k "scalar" s1 r w1 P Hw1).
  unfold ion_n. rewrite Hn0, Hn1, !z_fin, !amu_fin, fin_un, fin_uT. simpl c_kbeV.
  rewrite fin_ofQ, fin_a1. xfin.
  assert (Q0 : zcharge s0 = kind_z x0) by (unfold zcharge, of_kind; rewrite E0; reflexivity).
  assert (Q1 : zcharge s1 = kind_z x1) by (unfold zcharge, of_kind; rewrite E1; reflexivity).
  assert (A0 : amu k s0 = kind_u k x0) by (unfold amu, of_kind; rewrite E0; reflexivity).
  assert (A1 : amu k s1 = kind_u k x1) by (unfold amu, of_kind; rewrite E1; reflexivity).
  rewrite <- Q0, <- Q1, <- A0, <- A1.
  fold (RTeV k w0 s0). fold (RTeV k w1 s1).
  pose proof (RTeV_pos k w0 s0 P K0 Pw0) as T0. pose proof (RTeV_pos k w1 s1 P K1 Pw1) as T1.
  pose proof Un_pos as Pu.
  assert (B0 : 0 < amu k s0) by (rewrite A0; apply amu_pos, P).
  assert (B1 : 0 < amu k s1) by (rewrite A1; apply amu_pos, P).
  assert (D : 0 < amu k s0 * RTeV k w1 s1 + amu k s1 * RTeV k w0 s0) by nra.
  assert (R0 : 0 < n0 * Un * (zcharge s0 * zcharge s0) / RTeV k w0 s0).
  { unfold Rdiv. repeat apply Rmult_lt_0_compat; try assumption. apply Rinv_0_lt_compat, T0. }
  assert (R1 : 0 < n1 * Un * (zcharge s1 * zcharge s1) / RTeV k w1 s1).
  { unfold Rdiv. repeat apply Rmult_lt_0_compat; try assumption. apply Rinv_0_lt_compat, T1. }
  rewrite !fin_div by lra. xfin. rewrite fin_sqrt by lra. xfin.
  rewrite fin_tln.
  - xfin. rewrite fin_div by lra. f_equal. unfold Rlnlambda. rewrite Rdiv_1. reflexivity.
  - apply Rmult_lt_0_compat.
    + unfold Rdiv. repeat apply Rmult_lt_0_compat; try assumption; try lra. apply Rinv_0_lt_compat, D.
    + apply sqrt_lt_R0. lra.
Qed.

(* ---------------------------------------------------------------- nuc *)
Definition kind_q (k : consts R) (x : kind) : R :=
  match x with KProton => c_e k | KAlpha => 2 * c_e k | KElectron => - c_e k end.
Definition qcharge (k : consts R) (s : string) : R := of_kind (kind_q k) 0 s.
Lemma q_fin k x : q_of (kx k) x = Fin (kind_q k x).
Proof. destruct x; simpl c_e; unfold q_of; xfin; reflexivity. Qed.

(** the drift speed over the combined thermal speed *)
Definition Rwab (wa wb : R) : R := sqrt (wa * wa + wb * wb) * Uv.
Definition Rdvw (d wa wb : R) : R := (d * Uv) / Rwab wa wb.
Definition Rldr (erfR : R -> R) (x : R) : R :=
  / (x * x * x) * (erfR x - x * (2 / sqrt PI * exp (- 1 * (x * x)))).
Definition Rnuab (k : consts R) (erfR : R -> R) (sa sb : string) (L nb wa wb d : R) : R :=
  ((qcharge k sa * qcharge k sa) * (qcharge k sb * qcharge k sb)
   / (4 * PI * (c_eps0 k * c_eps0 k) * mass k sa * (mass k sa * mass k sb / (mass k sa + mass k sb))))
  * (nb * Un * L * Rldr erfR (Rdvw d wa wb) * / (Rwab wa wb * Rwab wa wb * Rwab wa wb)) / Uq.

Lemma mass_density_one k ions s :
  usable ions [s] -> mass_density (kx k) ions [PStr s] = Ok (Total (fun r => sum_skip [rho_fun k s r])).
Proof.
  intros U. pose proof (@mass_density_total ions [s] k U) as H. simpl join in H. exact H.
Qed.

Lemma dv_pair K ions sa sb :
  legal sa -> legal sb -> In sa ions -> In sb ions -> sa <> sb ->
  dv (T := XR) K ions sa sb false = Ok (fun r => vsub (ion_v sa r) (ion_v sb r)).
Proof.
  intros La Lb Ia Ib Hne. unfold dv. apply String.eqb_neq in Hne. rewrite Hne.
  unfold velocity1. rewrite !velocity_one by assumption. reflexivity.
Qed.

Definition Rdist (ax ay az bx by' bz : R) : R :=
  sqrt ((ax - bx) * (ax - bx) + (ay - by') * (ay - by') + (az - bz) * (az - bz)).
Lemma Rdist_sym ax ay az bx by' bz : Rdist ax ay az bx by' bz = Rdist bx by' bz ax ay az.
Proof. unfold Rdist. f_equal. ring. Qed.

Lemma nuc_val k erf erfR ions sa sb both r na nb wsa wsb wpa wpb ax ay az bx by' bz :
  positive k -> usable ions [sa] -> usable ions [sb] -> sa <> sb -> 0 < zcharge sa -> 0 < zcharge sb ->
  (forall x, erf (Fin x) = Fin (erfR x)) ->
  r ("n", "", sa) = Fin na -> r ("n", "", sb) = Fin nb ->
  r ("w", "scalar", sa) = Fin wsa -> r ("w", "scalar", sb) = Fin wsb ->
  r ("w", "par", sa) = Fin wpa -> r ("w", "par", sb) = Fin wpb ->
  has_v r sa ax ay az -> has_v r sb bx by' bz ->
  0 < na -> 0 < nb -> 0 < wsa -> 0 < wsb -> 0 < wpa -> 0 < wpb ->
  0 < Rdist ax ay az bx by' bz ->
  plain (nuc (kx k) ions erf sa sb both) r
    (let nu := Rnuab k erfR sa sb (Rlnlambda k sa sb na wsa nb wsb) nb wpa wpb (Rdist ax ay az bx by' bz) in
     if both then nu + nu * ((na * mmp k sa) / (nb * mmp k sb)) else nu).
Proof.
  intros P Ua Ub Hne Za Zb Herf Hna Hnb Hwsa Hwsb Hwpa Hwpb Hva Hvb Pna Pnb Pwsa Pwsb Pwpa Pwpb Pd.
  assert (Ia : In sa ions) by (apply Ua; left; reflexivity).
  assert (Ib : In sb ions) by (apply Ub; left; reflexivity).
  assert (La : legal sa) by (apply Ua; left; reflexivity).
  assert (Lb : legal sb) by (apply Ub; left; reflexivity).
  assert (Ka : known sa) by (apply Ua; left; reflexivity).
  assert (Kb : known sb) by (apply Ub; left; reflexivity).
  pose proof Ka as [xa Ea]. pose proof Kb as [xb Eb].
  destruct (lnlambda_val k ions sa sb r na nb wsa wsb P Ua Ub Za Zb Hna Hnb Hwsa Hwsb Pna Pnb Pwsa Pwsb)
    as (lf & Hlf & Hlv).
  unfold nuc. rewrite two_single_ok by assumption. cbn [bind]. cbv beta iota.
  rewrite (get_kind_some _ _ Ea), (get_kind_some _ _ Eb). cbn [bind].
  rewrite Hlf. cbn [bind]. rewrite dv_pair by assumption. cbn [bind].
  rewrite (mass_density_one k ions sa Ua), (mass_density_one k ions sb Ub). cbn [bind].
  eexists; split; [reflexivity|]. cbv zeta beta.
  rewrite Hlv, !q_fin, !mass_fin. unfold ion_n, ion_w. rewrite Hnb, Hwpa, Hwpb.
  destruct Hva as (Ax & Ay & Az). destruct Hvb as (Bx & By & Bz).
  unfold ion_v. rewrite Ax, Ay, Az, Bx, By, Bz, vsub_fin, vmag_fin.
  fold (Rdist ax ay az bx by' bz).
  rewrite (rho_fun_fin k sa r na Hna), (rho_fun_fin k sb r nb Hnb).
  assert (Ma : mass k sa = kind_m k xa) by (unfold mass, of_kind; rewrite Ea; reflexivity).
  assert (Mb : mass k sb = kind_m k xb) by (unfold mass, of_kind; rewrite Eb; reflexivity).
  assert (Qa : qcharge k sa = kind_q k xa) by (unfold qcharge, of_kind; rewrite Ea; reflexivity).
  assert (Qb : qcharge k sb = kind_q k xb) by (unfold qcharge, of_kind; rewrite Eb; reflexivity).
  rewrite <- Ma, <- Mb, <- Qa, <- Qb.
  pose proof (mass_pos k sa P Ka) as Pma. pose proof (mass_pos k sb P Kb) as Pmb.
  pose proof (mmp_pos k sa P Ka) as Pra. pose proof (mmp_pos k sb P Kb) as Prb.
  pose proof Un_pos as PUn. pose proof Uv_pos as PUv. pose proof Uq_pos as PUq.
  pose proof PI_RGT_0 as Ppi. destruct P. simpl c_eps0.
  rewrite fin_un, fin_uv, fin_unuc, fin_tpi, fin_a1, fin_a2, !fin_ofZ. xfin.
  rewrite !prod_skip2, !sum_skip2. rewrite (fin_sqrt (wpa * wpa + wpb * wpb)) by nra.
  rewrite (fin_sqrt PI) by lra.
  assert (S1 : forall a, sum_skip [Fin a] = Fin a).
  { intros a. change [Fin a] with (map Fin [a]). rewrite sum_skip_fin. f_equal. simpl; ring. }
  rewrite !S1. xfin.
  assert (PW : 0 < Rwab wpa wpb).
  { unfold Rwab. apply Rmult_lt_0_compat; [apply sqrt_lt_R0; nra|assumption]. }
  fold (Rwab wpa wpb). rewrite !fin_cube.
  assert (Hspi : 0 < sqrt PI) by (apply sqrt_lt_R0; assumption).
  rewrite (fin_div (mass k sa * mass k sb)) by lra. xfin.
  assert (PX : 0 < Rdvw (Rdist ax ay az bx by' bz) wpa wpb).
  { unfold Rdvw, Rdiv. apply Rmult_lt_0_compat; [nra|apply Rinv_0_lt_compat; assumption]. }
  rewrite (fin_div (Rdist ax ay az bx by' bz * Uv)) by lra. fold (Rdvw (Rdist ax ay az bx by' bz) wpa wpb).
  set (X := Rdvw (Rdist ax ay az bx by' bz) wpa wpb) in *.
  rewrite Herf, fin_cube. rewrite (fin_div 2) by lra. xfin. rewrite fin_texp. xfin.
  assert (H3 : forall q, 0 < q -> q * q * q <> 0) by (intros q Hq; apply Rgt_not_eq; repeat apply Rmult_lt_0_compat; assumption).
  rewrite (fin_inv (X * X * X)) by (apply H3, PX).
  rewrite (fin_inv (Rwab wpa wpb * Rwab wpa wpb * Rwab wpa wpb)) by (apply H3, PW).
  rewrite (fin_inv (Rrho k nb sb)) by (unfold Rrho; apply Rgt_not_eq, Rmult_lt_0_compat; assumption).
  assert (PM : 0 < mass k sa * mass k sb / (mass k sa + mass k sb)).
  { unfold Rdiv. apply Rmult_lt_0_compat; [nra|apply Rinv_0_lt_compat; lra]. }
  xfin. rewrite fin_div.
  2:{ apply Rgt_not_eq. set (MU := mass k sa * mass k sb / (mass k sa + mass k sb)) in *. clearbody MU.
      apply Rmult_lt_0_compat; [|exact PM]. apply Rmult_lt_0_compat; [|exact Pma].
      apply Rmult_lt_0_compat; [lra|]. apply Rmult_lt_0_compat; assumption. }
  xfin. rewrite fin_div by lra. rewrite prod_skip2. xfin.
  match goal with |- _ = Fin (if both then ?a + ?a * ?q else ?a) => change a with a; set (nu := a) end.
  unfold Rnuab, Rldr in nu. fold X in nu.
  match goal with |- (if both then Fin (?a + ?a * ?q) else Fin ?a) = _ => assert (Hnu : a = nu) end.
  { unfold nu. rewrite !Rmult_1_r. reflexivity. }
  rewrite Hnu. destruct both; [|reflexivity]. f_equal. 
Qed.

Lemma Rlnlambda_sym k s0 s1 n0 w0 n1 w1 :
  Rlnlambda k s0 s1 n0 w0 n1 w1 = Rlnlambda k s1 s0 n1 w1 n0 w0.
Proof.
  unfold Rlnlambda. f_equal. f_equal. f_equal.
  - rewrite (Rmult_comm (zcharge s0) (zcharge s1)), (Rplus_comm (amu k s0) (amu k s1)),
      (Rplus_comm (amu k s0 * RTeV k w1 s1)). reflexivity.
  - f_equal. apply Rplus_comm.
Qed.
Lemma Rwab_sym a b : Rwab a b = Rwab b a.
Proof. unfold Rwab. f_equal. f_equal. ring. Qed.

(** the tabulated masses are consistent with the tabulated mass ratios *)
Definition consistent (k : consts R) : Prop :=
  c_ma k = c_ma_mp k * c_mp k /\ c_me k = c_me_mp k * c_mp k.
Lemma consistent_mass k s : consistent k -> known s -> mass k s = mmp k s * c_mp k.
Proof.
  intros [Ha He] [x Hx]. unfold mass, mmp, of_kind. rewrite Hx. destruct x; simpl; lra.
Qed.

Lemma Rnuab_sym k erfR sa sb L na nb wa wb d :
  positive k -> consistent k -> known sa -> known sb -> 0 < na -> 0 < nb ->
  let nu := Rnuab k erfR sa sb L nb wa wb d in
  let nu' := Rnuab k erfR sb sa L na wb wa d in
  nu + nu * ((na * mmp k sa) / (nb * mmp k sb)) = nu' + nu' * ((nb * mmp k sb) / (na * mmp k sa)).
Proof.
  intros P C Ka Kb Pna Pnb. cbv zeta. unfold Rnuab, Rdvw. rewrite (Rwab_sym wb wa).
  set (LDR := Rldr _ _). clearbody LDR. set (W := / (Rwab wa wb * Rwab wa wb * Rwab wa wb)). clearbody W.
  rewrite (consistent_mass k sa C Ka), (consistent_mass k sb C Kb).
  pose proof (mmp_pos k sa P Ka). pose proof (mmp_pos k sb P Kb). pose proof Uq_pos.
  destruct P. pose proof PI_RGT_0.
  field. repeat split; try lra.
  apply Rgt_not_eq. rewrite <- Rmult_plus_distr_r. apply Rmult_lt_0_compat; lra.
Qed.

(** Zero drift: 0 * infinity. *)
Lemma nuc_zero_drift k erf ions sa sb both r na nb wsa wsb wpa wpb ax ay az :
  positive k -> usable ions [sa] -> usable ions [sb] -> sa <> sb -> 0 < zcharge sa -> 0 < zcharge sb ->
  erf (Fin 0) = Fin 0 ->
  r ("n", "", sa) = Fin na -> r ("n", "", sb) = Fin nb ->
  r ("w", "scalar", sa) = Fin wsa -> r ("w", "scalar", sb) = Fin wsb ->
  r ("w", "par", sa) = Fin wpa -> r ("w", "par", sb) = Fin wpb ->
  has_v r sa ax ay az -> has_v r sb ax ay az ->
  0 < na -> 0 < nb -> 0 < wsa -> 0 < wsb -> 0 < wpa -> 0 < wpb ->
  exists f, nuc (kx k) ions erf sa sb both = Ok f /\ f r = NaN.
Proof.
  intros P Ua Ub Hne Za Zb Herf Hna Hnb Hwsa Hwsb Hwpa Hwpb Hva Hvb Pna Pnb Pwsa Pwsb Pwpa Pwpb.
  assert (Ia : In sa ions) by (apply Ua; left; reflexivity).
  assert (Ib : In sb ions) by (apply Ub; left; reflexivity).
  assert (La : legal sa) by (apply Ua; left; reflexivity).
  assert (Lb : legal sb) by (apply Ub; left; reflexivity).
  assert (Ka : known sa) by (apply Ua; left; reflexivity).
  assert (Kb : known sb) by (apply Ub; left; reflexivity).
  pose proof Ka as [xa Ea]. pose proof Kb as [xb Eb].
  destruct (lnlambda_val k ions sa sb r na nb wsa wsb P Ua Ub Za Zb Hna Hnb Hwsa Hwsb Pna Pnb Pwsa Pwsb)
    as (lf & Hlf & Hlv).
  unfold nuc. rewrite two_single_ok by assumption. cbn [bind]. cbv beta iota.
  rewrite (get_kind_some _ _ Ea), (get_kind_some _ _ Eb). cbn [bind].
  rewrite Hlf. cbn [bind]. rewrite dv_pair by assumption. cbn [bind].
  rewrite (mass_density_one k ions sa Ua), (mass_density_one k ions sb Ub). cbn [bind].
  eexists; split; [reflexivity|]. cbv zeta beta.
  unfold ion_n, ion_w. rewrite Hwpa, Hwpb.
  destruct Hva as (Ax & Ay & Az). destruct Hvb as (Bx & By & Bz).
  unfold ion_v. rewrite Ax, Ay, Az, Bx, By, Bz, vsub_fin, vmag_fin.
  replace ((ax - ax) * (ax - ax) + (ay - ay) * (ay - ay) + (az - az) * (az - az)) with 0 by ring.
  rewrite sqrt_0. rewrite !fin_sq, sum_skip2, fin_uv. rewrite (fin_sqrt (wpa * wpa + wpb * wpb)) by nra.
  rewrite !fin_mul. pose proof Uv_pos.
  assert (PW : 0 < sqrt (wpa * wpa + wpb * wpb) * Uv).
  { apply Rmult_lt_0_compat; [apply sqrt_lt_R0; nra|assumption]. }
  rewrite (fin_div (0 * Uv)) by lra.
  replace (0 * Uv / (sqrt (wpa * wpa + wpb * wpb) * Uv)) with 0 by (field; split; [lra|apply Rgt_not_eq, sqrt_lt_R0; nra]).
  rewrite Herf, fin_cube. replace (0 * 0 * 0) with 0 by ring.
  assert (I0 : ainv (Fin 0) = PInf).
  { unfold ainv. rewrite fin_a1. change (xdiv (Fin 1) (Fin 0) = PInf). unfold xdiv, inf_sign.
    assert (E : Reqb 0 0 = true) by (apply Reqb_true; reflexivity). rewrite E.
    assert (F : Rltb 0 1 = true) by (apply Rltb_true; lra). rewrite F. reflexivity. }
  rewrite I0. rewrite !fin_sq, fin_a2, fin_tpi, !fin_ofZ, !fin_mul, fin_texp.
  pose proof PI_RGT_0. rewrite (fin_sqrt PI) by lra.
  assert (0 < sqrt PI) by (apply sqrt_lt_R0; assumption).
  rewrite (fin_div 2) by lra. rewrite !fin_mul, fin_sub.
  replace (0 - 0 * (2 / sqrt PI * exp (-1 * (0 * 0)))) with 0 by ring.
  assert (N : amul PInf (Fin 0) = NaN).
  { change (xmul PInf (Fin 0) = NaN). unfold xmul, inf_sign.
    assert (F : Rltb 0 0 = false) by (apply Rltb_false; lra). rewrite F. reflexivity. }
  rewrite N. rewrite nan_mul_r, nan_mul_l, nan_mul_r, nan_div_l, nan_mul_l, nan_add_l.
  destruct both; reflexivity.
Qed.

(* ------------------------------------------------------------ electrons *)
Lemma thermal_one ions s c :
  usable ions [s] -> thermal_speed (T := XR) ions [PStr s] c = Ok (Total (fun r => sum_skip [ion_w c s r])).
Proof.
  intros U. destruct (us_legal _ _ U s (or_introl eq_refl)) as [Hp Hc]. unfold thermal_speed. simpl all_strs.
  cbv iota. cbn [existsb]. rewrite Hp. cbn [orb].
  rewrite chk_one by (try split; try assumption; apply U; left; reflexivity). cbn [bind].
  pose proof (per_species_ok ions (fun s => Ok (ion_w (T := XR) c s)) (ion_w c) [s] (us_ne _ _ U) (us_nodup _ _ U)
                (us_in _ _ U) (fun s _ => eq_refl)) as H1. simpl sort_str in H1. rewrite H1. reflexivity.
Qed.
Lemma number_density_one ions s :
  usable ions [s] -> number_density (T := XR) ions [PStr s] true = Ok (Total (fun r => sum_skip [ion_n s r])).
Proof. intros U. exact (@number_density_total ions [s] true U). Qed.

Lemma mapM_kinds names : (forall s, In s names -> known s) ->
  mapM get_kind names = Ok (map (fun s => of_kind (fun k => k) KProton s) names).
Proof.
  intros H. apply mapM_ok_map. intros s Hs. destruct (H s Hs) as [k Hk].
  unfold get_kind, of_kind. rewrite Hk. reflexivity.
Qed.

Lemma combine_map_same {A B C} (f : A -> B) (g : A -> C) l :
  combine (map f l) (map g l) = map (fun x => (f x, g x)) l.
Proof. induction l as [|x l IH]; simpl; [reflexivity|]. rewrite IH; reflexivity. Qed.

Lemma usable_sub ions names s : usable ions names -> In s names -> usable ions [s].
Proof. intros U Hs. apply usable_one; apply U, Hs. Qed.

Definition Rcharge (n : string -> R) (names : list string) : R := Rsum (map (fun s => n s * zcharge s) names).
Definition Rcurrent (n v : string -> R) (names : list string) : R :=
  Rsum (map (fun s => v s * (n s * zcharge s)) names).

Lemma electron_ref_in species t : electron_ref species = Ok t -> In t species /\ (t = "p" \/ t = "p1").
Proof.
  unfold electron_ref. destruct (mem_str "e" species); [discriminate|].
  destruct (mem_str "p" species) eqn:E1, (mem_str "p1" species) eqn:E2; try discriminate;
    intros H; inversion H; subst.
  - split; [apply mem_str_In; exact E1|auto].
  - split; [apply mem_str_In; exact E2|auto].
Qed.

Lemma electrons_val k ions species t r n vx vy vz wp :
  positive k -> usable ions species -> electron_ref species = Ok t ->
  (forall s, In s species -> r ("n", "", s) = Fin (n s)) ->
  (forall s, In s species -> has_v r s (vx s) (vy s) (vz s)) ->
  r ("w", "scalar", t) = Fin wp -> 0 < Rcharge n species -> 0 <= n t ->
  exists f, estimate_electrons (kx k) ions species = Ok f /\
    f r = {| el_n := Fin (Rcharge n species);
             el_v := (Fin (Rcurrent n vx species / Rcharge n species),
                      Fin (Rcurrent n vy species / Rcharge n species),
                      Fin (Rcurrent n vz species / Rcharge n species));
             el_w := Fin (sqrt (n t / Rcharge n species * / c_me_mp k * (wp * wp))) |}.
Proof.
  intros P U Ht Hn Hv Hw Hpos Hnt.
  destruct (electron_ref_in _ _ Ht) as [Hin _].
  pose proof (usable_sub _ _ _ U Hin) as Ut.
  assert (S1 : forall a, sum_skip [Fin a] = Fin a).
  { intros a. change [Fin a] with (map Fin [a]). rewrite sum_skip_fin. f_equal. simpl; ring. }
  assert (Hz : forall s, In s species -> (z_of (of_kind (fun k => k) KProton s) : XR) = Fin (zcharge s)).
  { intros s Hs. destruct (us_known _ _ U s Hs) as [x Hx]. unfold zcharge, of_kind. rewrite Hx. apply z_fin. }
  assert (Hwe : forall q, 0 < q ->
     asqrt (((Fin (n t) / Fin q) * ainv (c_me_mp (kx k))) * asq (Fin wp))%num
     = Fin (sqrt (n t / q * / c_me_mp k * (wp * wp)))).
  { intros q Hq. simpl c_me_mp. destruct P. rewrite fin_div by lra. rewrite fin_inv by lra. rewrite fin_sq, !fin_mul.
    apply fin_sqrt. apply Rmult_le_pos; [|nra]. apply Rmult_le_pos.
    - unfold Rdiv. apply Rmult_le_pos; [exact Hnt|]. left. apply Rinv_0_lt_compat, Hq.
    - left. apply Rinv_0_lt_compat. assumption. }
  assert (Hnz : forall q, 0 < q -> aeqb (Fin q) (a0 : XR) = false).
  { intros q Hq. rewrite fin_a0, fin_eqb. apply Reqb_false. lra. }
  unfold estimate_electrons. rewrite Ht. cbn [bind].
  rewrite mapM_kinds by apply U. cbn [bind].
  rewrite (thermal_one _ _ _ Ut), (number_density_one _ _ Ut).
  destruct species as [|s0 [|s1 rest]] eqn:Esp.
  - destruct Hin.
  - (* one species *)
    assert (s0 = t) by (destruct Hin as [E|[]]; exact E). subst s0.
    change (map PStr [t]) with [PStr t]. rewrite (number_density_one _ _ Ut). cbn [bind].
    rewrite velocity_one by (apply Ut; left; reflexivity). cbn [bind]. cbn [map].
    eexists; split; [reflexivity|]. cbv zeta beta.
    rewrite (Hz t (or_introl eq_refl)).
    unfold ion_n, ion_w. rewrite Hw, (Hn t (or_introl eq_refl)), !S1, fin_mul.
    unfold Rcharge, Rcurrent in *. cbn [map Rsum] in *. rewrite !Rplus_0_r in *.
    rewrite (Hnz _ Hpos), (Hwe _ Hpos).
    destruct (Hv t (or_introl eq_refl)) as (Ex & Ey & Ez).
    unfold ion_v, vbuild, vcomp. rewrite Ex, Ey, Ez, !fin_mul, !fin_div by lra. reflexivity.
  - rewrite <- Esp in *.
    assert (L : (1 < List.length species)%nat) by (rewrite Esp; simpl; lia).
    rewrite (number_density_each true U) by lia. cbn [bind].
    rewrite (velocity_each k ions species U L). cbn [bind].
    assert (HK : mapM (fun sf : string * (row XR -> XR) => get_kind (fst sf))
                   (map (fun s => (s, ion_n s)) (sort_str species))
                 = Ok (map (fun s => of_kind (fun k => k) KProton s) (sort_str species))).
    { rewrite <- (mapM_kinds (sort_str species)).
      - generalize (sort_str species). intros l. induction l as [|x l IH]; simpl; [reflexivity|].
        rewrite IH. reflexivity.
      - intros s Hs. rewrite sort_In in Hs. apply U, Hs. }
    rewrite HK. cbn [bind]. eexists; split; [reflexivity|]. cbv zeta beta.
    unfold vbuild. rewrite combine_map_same, !map_map. cbn [fst snd]. rewrite !combine_map_same, !map_map. cbn [fst snd].
    assert (HNE : sum_skip (map (fun s => (ion_n s r * z_of (of_kind (fun k => k) KProton s))%num) (sort_str species))
                  = Fin (Rcharge n species)).
    { apply sum_skip_list. intros s Hs. unfold ion_n. rewrite (Hn s Hs), (Hz s Hs). apply fin_mul. }
    rewrite HNE, (Hnz _ Hpos). unfold ion_w. rewrite Hw. unfold ion_n at 1.
    assert (HNT : sum_skip [ion_n t r] = Fin (n t)).
    { unfold ion_n. rewrite (Hn t Hin). apply S1. }
    rewrite S1.
    match goal with |- context [ sum_skip [?a] ] => replace (sum_skip [a]) with (Fin (n t)) by (symmetry; exact HNT) end.
    rewrite (Hwe _ Hpos).
    assert (HV : forall i v, (forall s, In s species -> vcomp i (ion_v s r) = Fin (v s)) ->
       adiv (sum_skip (map (fun s => (vcomp i (ion_v s r) * (ion_n s r * z_of (of_kind (fun k => k) KProton s)))%num)
                       (sort_str species))) (Fin (Rcharge n species))
       = Fin (Rcurrent n v species / Rcharge n species)).
    { intros i v Hi. rewrite (sum_skip_list species _ (fun s => v s * (n s * zcharge s))).
      - unfold Rcurrent. apply fin_div. lra.
      - intros s Hs. unfold ion_n. rewrite (Hi s Hs), (Hn s Hs), (Hz s Hs), !fin_mul. reflexivity. }
    f_equal. f_equal; [f_equal|]; apply HV; intros s Hs; destruct (Hv s Hs) as (Ex & Ey & Ez); unfold ion_v, vcomp; assumption.
Qed.
