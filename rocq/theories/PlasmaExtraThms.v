(** Further property theorems about the numeric Plasma methods: the mass-to-charge projection
    (C15-C17), the Coulomb logarithm and collision frequency in closed form (C21, C22), specific entropy
    (C113), heat flux (C114), VDF ratio (C115), Coulomb number (C121) and the turbulence builder (C122).
    See PlasmaThms.v for the reading guide. *)
From Coq Require Import List String Ascii Bool Arith ZArith Reals Lra Lia Psatz Permutation.
From Verif Require Import Py PyStr Sort Num Species SpeciesProofs Frame Plasma Spacecraft PlasmaProofs PlasmaProofs2
  PlasmaProofs3 PlasmaProofs4 PlasmaMore PlasmaThms PlasmaExtra.
Import ListNotations.
Open Scope string_scope.
Open Scope R_scope.

(** the projection factor of a species: sqrt(m / (m_p z)) *)
Definition m2q (k : consts R) (s : string) : R := sqrt (mmp k s / zcharge s).

Lemma zcharge_known s : known s -> exists x, species_kind s = Some x /\ zcharge s = kind_z x.
Proof. intros [x E]. exists x. split; [exact E|]. unfold zcharge, of_kind. rewrite E. reflexivity. Qed.
Lemma mmp_kind k s x : species_kind s = Some x -> mmp k s = kind_mmp k x.
Proof. intros E. unfold mmp, of_kind. rewrite E. reflexivity. Qed.

Lemma sqrt_neg a : a < 0 -> asqrt (Fin a) = NaN.
Proof. intros H. change (xsqrt (Fin a) = NaN). unfold xsqrt. apply Rltb_true in H. rewrite H. reflexivity. Qed.

Lemma velocity_proj k ions s :
  usable ions [s] ->
  velocity (kx k) ions [PStr s] true =
  Ok (VOne (fun r => vscale (asqrt (adiv (Fin (mmp k s)) (Fin (zcharge s)))) (ion_v s r))).
Proof.
  intros U. assert (L : legal s) by (apply U; left; reflexivity).
  assert (I : In s ions) by (apply U; left; reflexivity).
  assert (K : known s) by (apply U; left; reflexivity).
  unfold velocity. rewrite chk_one by assumption. cbn [bind].
  apply mem_str_In in I. rewrite I. destruct (zcharge_known s K) as (x & E & Z).
  rewrite (get_kind_some _ _ E). cbn [bind]. cbv zeta.
  rewrite m_in_mp_fin, z_fin, Z, (mmp_kind k s x E). reflexivity.
Qed.

Lemma zcharge_cases s : known s -> zcharge s = 1 \/ zcharge s = 2 \/ zcharge s = -1.
Proof. intros K. destruct (zcharge_known s K) as ([] & E & ->); simpl; auto. Qed.

Lemma m2q_fin k s : positive k -> known s -> 0 < zcharge s ->
  asqrt (adiv (Fin (mmp k s)) (Fin (zcharge s))) = Fin (m2q k s).
Proof.
  intros P K Z. rewrite fin_div by lra. apply fin_sqrt. unfold Rdiv.
  left. apply Rmult_lt_0_compat; [apply mmp_pos; assumption|apply Rinv_0_lt_compat, Z].
Qed.
Lemma m2q_nan k s : positive k -> known s -> zcharge s < 0 ->
  asqrt (adiv (Fin (mmp k s)) (Fin (zcharge s))) = NaN.
Proof.
  intros P K Z. rewrite fin_div by lra. apply sqrt_neg. unfold Rdiv.
  pose proof (mmp_pos k s P K). pose proof (Rinv_lt_0_compat _ Z). nra.
Qed.

(* ================================================================ C15 *)
(** project_m2q scales a single species' velocity by sqrt(m/(m_p z)); an electron has no such window
    and comes out missing; a total cannot be projected *)
Theorem C15_projected_velocity :
  forall ions k s r x y z, positive k -> usable ions [s] -> has_v r s x y z ->
  (0 < zcharge s -> returnsV (velocity (kx k) ions [PStr s] true) r (m2q k s * x) (m2q k s * y) (m2q k s * z)) /\
  (zcharge s < 0 -> exists f, velocity (kx k) ions [PStr s] true = Ok (VOne f) /\ f r = (NaN, NaN, NaN)).
Proof.
  intros ions k s r x y z P U (Hx & Hy & Hz).
  assert (K : known s) by (apply U; left; reflexivity).
  split; intros Z; eexists; (split; [apply (velocity_proj k ions s U)|]); cbv beta; unfold ion_v, vscale;
    rewrite Hx, Hy, Hz.
  - rewrite (m2q_fin k s P K Z), !fin_mul. rewrite !(Rmult_comm (m2q k s)). reflexivity.
  - rewrite (m2q_nan k s P K Z). reflexivity.
Qed.
Print Assumptions C15_projected_velocity.

Theorem C15_totals_not_projected :
  forall (K : consts XR) ions names, usable ions names -> (1 < List.length names)%nat ->
  velocity K ions [PStr (join "+" names)] true = Err NotImplementedError /\
  velocity K ions (map PStr names) true = Err NotImplementedError.
Proof.
  intros K ions names U L. unfold velocity.
  rewrite chk_join by apply U. rewrite chk_many by (try apply U; lia). cbn [bind].
  destruct (sort_two_up names L) as (x & y & l & E). rewrite E. split; reflexivity.
Qed.
Print Assumptions C15_totals_not_projected.

(* ================================================================ C16 *)
Lemma dv_proj k ions s0 s1 :
  usable ions [s0] -> usable ions [s1] -> s0 <> s1 ->
  dv (kx k) ions s0 s1 true =
  Ok (fun r => vsub (vscale (asqrt (adiv (Fin (mmp k s0)) (Fin (zcharge s0)))) (ion_v s0 r))
                    (vscale (asqrt (adiv (Fin (mmp k s1)) (Fin (zcharge s1)))) (ion_v s1 r))).
Proof.
  intros U0 U1 Hne. unfold dv. apply String.eqb_neq in Hne. rewrite Hne.
  unfold velocity1. rewrite !velocity_proj by assumption. reflexivity.
Qed.
Lemma dv_proj_fin k ions s0 s1 r x0 y0 z0 x1 y1 z1 :
  positive k -> usable ions [s0] -> usable ions [s1] -> s0 <> s1 -> 0 < zcharge s0 -> 0 < zcharge s1 ->
  has_v r s0 x0 y0 z0 -> has_v r s1 x1 y1 z1 ->
  exists f, dv (kx k) ions s0 s1 true = Ok f /\
    f r = (Fin (m2q k s0 * x0 - m2q k s1 * x1), Fin (m2q k s0 * y0 - m2q k s1 * y1),
           Fin (m2q k s0 * z0 - m2q k s1 * z1)).
Proof.
  intros P U0 U1 Hne Z0 Z1 (A & B & C) (D & E & F).
  eexists; split; [apply dv_proj; assumption|]. cbv beta.
  rewrite !m2q_fin; try assumption; try (apply U0; left; reflexivity); try (apply U1; left; reflexivity).
  unfold ion_v, vscale. rewrite A, B, C, D, E, F, !fin_mul, vsub_fin.
  rewrite !(Rmult_comm (m2q k s0)), !(Rmult_comm (m2q k s1)). reflexivity.
Qed.
(** the projected drift is the difference of the two projected velocities *)
Theorem C16_projected_drift :
  forall k ions s0 s1 r x0 y0 z0 x1 y1 z1,
  positive k -> usable ions [s0] -> usable ions [s1] -> s0 <> s1 -> 0 < zcharge s0 -> 0 < zcharge s1 ->
  has_v r s0 x0 y0 z0 -> has_v r s1 x1 y1 z1 ->
  exists f, dv (kx k) ions s0 s1 true = Ok f /\
    f r = (Fin (sqrt (mmp k s0 / zcharge s0) * x0 - sqrt (mmp k s1 / zcharge s1) * x1),
           Fin (sqrt (mmp k s0 / zcharge s0) * y0 - sqrt (mmp k s1 / zcharge s1) * y1),
           Fin (sqrt (mmp k s0 / zcharge s0) * z0 - sqrt (mmp k s1 / zcharge s1) * z1)).
Proof. exact dv_proj_fin. Qed.
(** protons are their own reference window; alphas are scaled by sqrt(m_a/(2 m_p)) *)
Example C16_projection_of_protons_and_alphas : forall k,
  sqrt (mmp k "p1" / zcharge "p1") = 1 /\ sqrt (mmp k "a" / zcharge "a") = sqrt (c_ma_mp k / 2).
Proof.
  intros k. unfold mmp, zcharge, of_kind, species_kind. simpl. split; [|reflexivity].
  replace (1 / 1) with 1 by field. apply sqrt_1.
Qed.
Print Assumptions C16_projected_drift.

(* ================================================================ C17 *)
Lemma sum_two_sorted s0 s1 (f : string -> R) : s0 <> s1 ->
  exists a b, sort_str [s0; s1] = [a; b] /\ ((a = s0 /\ b = s1) \/ (a = s1 /\ b = s0)).
Proof.
  intros Hne. pose proof (sort_perm [s0; s1]) as HP. destruct (sort_str [s0; s1]) as [|a [|b [|c l]]] eqn:E.
  - apply Permutation_length in HP. discriminate.
  - apply Permutation_length in HP. discriminate.
  - exists a, b. split; [reflexivity|]. apply Permutation_length_2_inv in HP.
    destruct HP as [HP|HP]; injection HP as <- <-; auto.
  - apply Permutation_length in HP. discriminate.
Qed.

Theorem C17_projected_two_species :
  forall ions s0 s1 k args r n vx vy vz, positive k -> usable ions [s0; s1] ->
  (args = [PStr (join "+" [s0; s1])] \/ args = [PStr s0; PStr s1]) ->
  0 < zcharge s0 -> 0 < zcharge s1 ->
  (forall s, In s [s0; s1] -> r ("n", "", s) = Fin (n s) /\ 0 < n s) ->
  (forall s, In s [s0; s1] -> has_v r s (vx s) (vy s) (vz s)) ->
  let rho := fun s => n s * mmp k s in
  let q := fun s => sqrt (mmp k s / zcharge s) in
  exists p, plain (pdynamic (kx k) ions args true) r p /\
    p * Upth = 1 / 2 * (rho s0 * rho s1 / (rho s0 + rho s1) * Urho k)
               * (((q s0 * vx s0 - q s1 * vx s1) ^ 2 + (q s0 * vy s0 - q s1 * vy s1) ^ 2
                   + (q s0 * vz s0 - q s1 * vz s1) ^ 2) * Uv ^ 2).
Proof.
  intros ions s0 s1 k args r n vx vy vz P U Ha Z0 Z1 Hn Hv. cbv zeta.
  assert (U0 : usable ions [s0]) by (apply (usable_sub _ _ _ U); left; reflexivity).
  assert (U1 : usable ions [s1]) by (apply (usable_sub _ _ _ U); right; left; reflexivity).
  assert (Hne : s0 <> s1).
  { pose proof (us_nodup _ _ U) as ND. inversion ND; subst. intros ->. apply H1. left; reflexivity. }
  destruct (sum_two_sorted s0 s1 n Hne) as (a & b & E & AB).
  assert (Hc : chk_species ions args = Ok [a; b]).
  { rewrite <- E. destruct Ha as [->| ->]; [apply chk_join; apply U|].
    change [PStr s0; PStr s1] with (map PStr [s0; s1]). apply chk_many; try apply U. simpl; lia. }
  assert (HP : per_species ions (ion_rho (kx k)) [a; b] = Ok [(a, rho_fun k a); (b, rho_fun k b)]).
  { rewrite <- E. pose proof (per_species_ok ions (ion_rho (kx k)) (rho_fun k) [s0; s1] (us_ne _ _ U) (us_nodup _ _ U)
       (us_in _ _ U) (fun s Hs => ion_rho_ok k s (us_known _ _ U s Hs))) as H. rewrite H, E. reflexivity. }
  pose proof (Hn s0 (or_introl eq_refl)) as [N0 Pn0]. pose proof (Hn s1 (or_intror (or_introl eq_refl))) as [N1 Pn1].
  pose proof (mmp_pos k s0 P (us_known _ _ U0 s0 (or_introl eq_refl))) as M0.
  pose proof (mmp_pos k s1 P (us_known _ _ U1 s1 (or_introl eq_refl))) as M1.
  assert (W0 : 0 < n s0 * mmp k s0) by (apply Rmult_lt_0_compat; assumption).
  assert (W1 : 0 < n s1 * mmp k s1) by (apply Rmult_lt_0_compat; assumption).
  pose proof (Hv s0 (or_introl eq_refl)) as V0. pose proof (Hv s1 (or_intror (or_introl eq_refl))) as V1.
  assert (HD : exists f, dv (kx k) ions a b true = Ok f /\ sumsq_skip (f r) = Fin
     ((m2q k s0 * vx s0 - m2q k s1 * vx s1) ^ 2 + (m2q k s0 * vy s0 - m2q k s1 * vy s1) ^ 2
                   + (m2q k s0 * vz s0 - m2q k s1 * vz s1) ^ 2)).
  { destruct AB as [[-> ->]|[-> ->]].
    - destruct (dv_proj_fin k ions s0 s1 r _ _ _ _ _ _ P U0 U1 Hne Z0 Z1 V0 V1) as (f & F & G).
      exists f. split; [exact F|]. rewrite G, sumsq_skip_fin. f_equal. ring.
    - destruct (dv_proj_fin k ions s1 s0 r _ _ _ _ _ _ P U1 U0 (not_eq_sym Hne) Z1 Z0 V1 V0) as (f & F & G).
      exists f. split; [exact F|]. rewrite G, sumsq_skip_fin. f_equal. ring. }
  destruct HD as (f & F & G).
  unfold pdynamic. rewrite Hc. cbn [bind negb]. rewrite F. cbn [bind]. rewrite HP. cbn [bind].
  assert (HR : (prod_skip (cols_at [(a, rho_fun k a); (b, rho_fun k b)] r)
              / sum_skip (cols_at [(a, rho_fun k a); (b, rho_fun k b)] r))%num
     = Fin (n s0 * mmp k s0 * (n s1 * mmp k s1) / (n s0 * mmp k s0 + n s1 * mmp k s1))).
  { unfold cols_at. cbn [map snd]. destruct AB as [[-> ->]|[-> ->]];
      rewrite (rho_fun_fin k s0 r _ N0), (rho_fun_fin k s1 r _ N1), prod_skip2, sum_skip2; unfold Rrho;
      rewrite fin_div by lra; f_equal; field; lra. }
  eexists; split.
  - eexists; split; [reflexivity|]. cbv beta. rewrite G, HR, pdv_const_fin, !fin_mul. reflexivity.
  - unfold Rpdv_const, m2q. pose proof Upth_pos. field. split; lra.
Qed.
Print Assumptions C17_projected_two_species.

(* ================================================================ C21 *)
(** closed form (NRL formulary): 29.9 - ln( z0 z1 (mu0+mu1)/(mu0 T1 + mu1 T0) sqrt(n0 z0^2/T0 + n1 z1^2/T1) ),
    densities in m^-3 and temperatures in eV from the scalar thermal speeds *)
Theorem C21_coulomb_logarithm_value :
  forall k ions s0 s1 r n0 n1 w0 w1, positive k -> usable ions [s0] -> usable ions [s1] ->
  0 < zcharge s0 -> 0 < zcharge s1 ->
  r ("n", "", s0) = Fin n0 -> r ("n", "", s1) = Fin n1 ->
  r ("w", "scalar", s0) = Fin w0 -> r ("w", "scalar", s1) = Fin w1 ->
  0 < n0 -> 0 < n1 -> 0 < w0 -> 0 < w1 ->
  let T := fun s w => 1 / 2 * mass k s * (w * Uv) ^ 2 / c_kbJ k * c_kbeV k in
  let T0 := T s0 w0 in let T1 := T s1 w1 in
  plain (lnlambda (kx k) ions s0 s1) r
    (29.9 - ln (zcharge s0 * zcharge s1 * (amu k s0 + amu k s1) / (amu k s0 * T1 + amu k s1 * T0)
                * sqrt (n0 * Un * zcharge s0 ^ 2 / T0 + n1 * Un * zcharge s1 ^ 2 / T1))).
Proof.
  intros k ions s0 s1 r n0 n1 w0 w1 P U0 U1 Z0 Z1 Hn0 Hn1 Hw0 Hw1 Pn0 Pn1 Pw0 Pw1. cbv zeta.
  pose proof (lnlambda_val k ions s0 s1 r n0 n1 w0 w1 P U0 U1 Z0 Z1 Hn0 Hn1 Hw0 Hw1 Pn0 Pn1 Pw0 Pw1) as (f & F & G).
  exists f. split; [exact F|]. rewrite G. f_equal. unfold Rlnlambda.
  assert (HT : forall s w, RTeV k w s = 1 / 2 * mass k s * (w * Uv) ^ 2 / c_kbJ k * c_kbeV k).
  { intros s w. unfold RTeV, Rtemp. pose proof UT_pos. destruct P. field. lra. }
  rewrite !HT. rewrite <- !Rsqr_pow2. unfold Rsqr. reflexivity.
Qed.
Print Assumptions C21_coulomb_logarithm_value.

(* ================================================================ C22 *)
(** closed form (Hernandez & Marsch 1985, eq. 18), in SI: the frequency is
    q_a^2 q_b^2 n_b lnL / (4 pi eps0^2 m_a mu) * [erf x - 2 x/sqrt pi exp(-x^2)]/x^3 / w_ab^3,
    x the drift speed over the combined parallel thermal speed w_ab *)
Theorem C22_collision_frequency_value :
  forall k erf erfR ions sa sb r na nb wsa wsb wpa wpb ax ay az bx by' bz lnl,
  positive k -> usable ions [sa] -> usable ions [sb] -> sa <> sb ->
  0 < zcharge sa -> 0 < zcharge sb -> (forall x, erf (Fin x) = Fin (erfR x)) ->
  r ("n", "", sa) = Fin na -> r ("n", "", sb) = Fin nb ->
  r ("w", "scalar", sa) = Fin wsa -> r ("w", "scalar", sb) = Fin wsb ->
  r ("w", "par", sa) = Fin wpa -> r ("w", "par", sb) = Fin wpb ->
  has_v r sa ax ay az -> has_v r sb bx by' bz ->
  0 < na -> 0 < nb -> 0 < wsa -> 0 < wsb -> 0 < wpa -> 0 < wpb ->
  0 < (ax - bx) ^ 2 + (ay - by') ^ 2 + (az - bz) ^ 2 ->
  plain (lnlambda (kx k) ions sa sb) r lnl ->
  let wab := sqrt (wpa ^ 2 + wpb ^ 2) * Uv in
  let drift := sqrt ((ax - bx) ^ 2 + (ay - by') ^ 2 + (az - bz) ^ 2) * Uv in
  let x := drift / wab in
  let mu := mass k sa * mass k sb / (mass k sa + mass k sb) in
  exists nu, plain (nuc (kx k) ions erf sa sb false) r nu /\
    nu * / 10000000 =
      qcharge k sa ^ 2 * qcharge k sb ^ 2 * (nb * Un) * lnl / (4 * PI * c_eps0 k ^ 2 * mass k sa * mu)
      * ((erfR x - x * (2 / sqrt PI) * exp (- x ^ 2)) / x ^ 3) / wab ^ 3.
Proof.
  intros k erf erfR ions sa sb r na nb wsa wsb wpa wpb ax ay az bx by' bz lnl
    P Ua Ub' Hne Za Zb Herf Hna Hnb Hwsa Hwsb Hwpa Hwpb Hva Hvb Pna Pnb Pwsa Pwsb Pwpa Pwpb Pd Hl.
  cbv zeta.
  assert (ED : Rdist ax ay az bx by' bz = sqrt ((ax - bx) ^ 2 + (ay - by') ^ 2 + (az - bz) ^ 2)).
  { unfold Rdist. f_equal. ring. }
  assert (PD : 0 < Rdist ax ay az bx by' bz) by (rewrite ED; apply sqrt_lt_R0, Pd).
  pose proof (nuc_val k erf erfR ions sa sb false r na nb wsa wsb wpa wpb ax ay az bx by' bz P Ua Ub' Hne Za Zb
                Herf Hna Hnb Hwsa Hwsb Hwpa Hwpb Hva Hvb Pna Pnb Pwsa Pwsb Pwpa Pwpb PD) as H.
  cbv zeta iota in H.
  pose proof (plain_fun _ _ _ _ Hl (lnlambda_val k ions sa sb r na nb wsa wsb P Ua Ub' Za Zb Hna Hnb Hwsa Hwsb Pna Pnb Pwsa Pwsb)) as EL.
  rewrite <- EL in H. eexists; split; [exact H|].
  unfold Rnuab, Rldr. rewrite <- ED.
  assert (EW : Rwab wpa wpb = sqrt (wpa ^ 2 + wpb ^ 2) * Uv).
  { unfold Rwab. do 2 f_equal. ring. }
  rewrite <- EW. fold (Rdvw (Rdist ax ay az bx by' bz) wpa wpb).
  set (X := Rdvw (Rdist ax ay az bx by' bz) wpa wpb).
  assert (PW : 0 < Rwab wpa wpb).
  { unfold Rwab. apply Rmult_lt_0_compat; [apply sqrt_lt_R0; nra|apply Uv_pos]. }
  assert (PX : 0 < X).
  { unfold X, Rdvw, Rdiv. pose proof Uv_pos. apply Rmult_lt_0_compat; [nra|apply Rinv_0_lt_compat; assumption]. }
  replace (-1 * (X * X)) with (- X ^ 2) by ring.
  pose proof (mass_pos k sa P (us_known _ _ Ua sa (or_introl eq_refl))) as Pma.
  pose proof (mass_pos k sb P (us_known _ _ Ub' sb (or_introl eq_refl))) as Pmb.
  pose proof PI_RGT_0. assert (0 < sqrt PI) by (apply sqrt_lt_R0; assumption).
  assert (EU : / 10000000 = Uq) by reflexivity.
  rewrite EU. pose proof Uq_pos. destruct P. field. repeat split; lra.
Qed.
Print Assumptions C22_collision_frequency_value.

(* =============================================================== C113 *)
(** specific entropy p rho^(-5/3), SI, for a total and for each column; 1e4/e is the unit *)
Definition Uentropy (k : consts R) : R := 10000 / c_e k.
Lemma fin_uentropy k : 0 < c_e k -> u_entropy (kx k) = Fin (Uentropy k).
Proof. intros H. unfold u_entropy. simpl c_e. rewrite fin_ofZ. apply fin_div. lra. Qed.
Lemma fin_tpow a b : 0 < a -> tpow (Fin a) (Fin b) = Fin (Rpower a b).
Proof. intros H. change (xpow (Fin a) (Fin b) = Fin (Rpower a b)). unfold xpow. apply Rltb_true in H. rewrite H. reflexivity. Qed.

Lemma entropy_fin k p rho : 0 < c_e k -> 0 < Urho k -> 0 < rho ->
  ((((Fin p * u_pth) * tpow (Fin rho * u_rho (kx k)) (- gamma)) / u_entropy (kx k))%num : XR)
  = Fin (p * Upth * Rpower (rho * Urho k) (- (5 / 3)) / Uentropy k).
Proof.
  intros He Hu Hr. rewrite fin_upth, fin_urho, fin_gamma, fin_opp, !fin_mul.
  rewrite fin_tpow by (apply Rmult_lt_0_compat; assumption). rewrite fin_mul, fin_uentropy by exact He.
  apply fin_div. unfold Uentropy, Rdiv. apply Rgt_not_eq. apply Rmult_lt_0_compat; [lra|apply Rinv_0_lt_compat, He].
Qed.

Theorem C113_specific_entropy :
  forall ions names k r n w p, positive k -> 0 < c_e k -> usable ions names ->
  (forall s, In s names -> r ("n", "", s) = Fin (n s) /\ 0 < n s) ->
  (forall s, In s names -> r ("w", "scalar", s) = Fin (w s)) ->
  returns (pth (kx k) ions [PStr (join "+" names)] "scalar") r p ->
  let rho := Rsum (map (fun s => n s * mmp k s) names) in
  exists S, returns (specific_entropy (kx k) ions [PStr (join "+" names)]) r S /\
    S * (10000 / c_e k) = (p * Upth) * Rpower (rho * Urho k) (- (5 / 3)).
Proof.
  intros ions names k r n w p P He U Hn Hw Hp. cbv zeta.
  assert (W : 0 < Rsum (map (fun s => n s * mmp k s) names)).
  { apply Rsum_pos_cons; [apply U|]. intros s Hs.
    apply Rmult_lt_0_compat; [apply Hn, Hs|apply mmp_pos; [exact P|apply U, Hs]]. }
  destruct Hp as (f & F & Fv).
  destruct (rho_total_val ions names k r n U (fun s Hs => proj1 (Hn s Hs))) as (g & G & Gv).
  eexists; split.
  - unfold specific_entropy. rewrite F, G. cbn [bind qmap2]. eexists; split; [reflexivity|]. cbv beta.
    rewrite Fv, Gv. apply entropy_fin; [exact He|apply Urho_pos, P|exact W].
  - unfold Uentropy. field. lra.
Qed.
Print Assumptions C113_specific_entropy.

Theorem C113_specific_entropy_columns :
  forall ions names k r n w s, positive k -> 0 < c_e k -> usable ions names -> (1 < List.length names)%nat ->
  In s names -> r ("n", "", s) = Fin n -> 0 < n -> r ("w", "scalar", s) = Fin w ->
  exists S, returns_col (specific_entropy (kx k) ions (map PStr names)) s r S /\
    S * (10000 / c_e k) = (1 / 2 * (n * mmp k s * Urho k) * (w * Uv) ^ 2) * Rpower (n * mmp k s * Urho k) (- (5 / 3)).
Proof.
  intros ions names k r n w s P He U L Hs Hn Pn Hw.
  assert (W : 0 < n * mmp k s) by (apply Rmult_lt_0_compat; [exact Pn|apply mmp_pos; [exact P|apply U, Hs]]).
  eexists; split.
  - apply (each_col (g := fun s r => (((pth_fun k "scalar" s r * u_pth) * tpow (rho_fun k s r * u_rho (kx k)) (- gamma)) / u_entropy (kx k))%num) (names := names)).
    + unfold specific_entropy. rewrite (pth_each k "scalar" U), (mass_density_each k U) by lia. cbn [bind qmap2].
      rewrite combine_map_same, map_map. reflexivity.
    + exact Hs.
    + cbv beta. rewrite (pth_fun_fin k "scalar" s r n w Hn Hw), (rho_fun_fin k s r n Hn).
      apply entropy_fin; [exact He|apply Urho_pos, P|exact W].
  - unfold Uentropy, Rpth, Rrho. pose proof Upth_pos. field. lra.
Qed.
Example C113_ex : exists k, positive k /\ 0 < c_e k.
Proof. exists ones. split; [apply ones_positive|simpl; lra]. Qed.
Print Assumptions C113_specific_entropy_columns.

(* =============================================================== C114 *)
Lemma sum_skip3 a b c : sum_skip [Fin a; Fin b; Fin c] = Fin (a + b + c).
Proof. change [Fin a; Fin b; Fin c] with (map Fin [a; b; c]). rewrite sum_skip_fin. f_equal. simpl. ring. Qed.
Lemma unit_fin x y z : 0 < x ^ 2 + y ^ 2 + z ^ 2 ->
  unit_vector (Fin x, Fin y, Fin z) =
  (Fin (x / sqrt (x ^ 2 + y ^ 2 + z ^ 2)), Fin (y / sqrt (x ^ 2 + y ^ 2 + z ^ 2)), Fin (z / sqrt (x ^ 2 + y ^ 2 + z ^ 2))).
Proof.
  intros H. unfold unit_vector, vbuild, vcomp. rewrite vmag_fin.
  replace (x * x + y * y + z * z) with (x ^ 2 + y ^ 2 + z ^ 2) by ring.
  pose proof (sqrt_lt_R0 _ H). rewrite !fin_div by lra. reflexivity.
Qed.
(** the component of d along b, the size of the rest *)
Definition along (dx dy dz bx by' bz : R) : R :=
  (dx * bx + dy * by' + dz * bz) / sqrt (bx ^ 2 + by' ^ 2 + bz ^ 2).
Lemma par_fin dx dy dz bx by' bz : 0 < bx ^ 2 + by' ^ 2 + bz ^ 2 ->
  project_par (Fin dx, Fin dy, Fin dz) (Fin bx, Fin by', Fin bz) = Fin (along dx dy dz bx by' bz).
Proof.
  intros H. unfold project_par. rewrite unit_fin by exact H. unfold vdot_skip, vcomp. rewrite !fin_mul, sum_skip3.
  f_equal. unfold along. pose proof (sqrt_lt_R0 _ H). field. lra.
Qed.
Lemma per_fin dx dy dz bx by' bz : 0 < bx ^ 2 + by' ^ 2 + bz ^ 2 ->
  exists p, project_per (Fin dx, Fin dy, Fin dz) (Fin bx, Fin by', Fin bz) = Fin p /\ 0 <= p /\
    p ^ 2 = dx ^ 2 + dy ^ 2 + dz ^ 2 - along dx dy dz bx by' bz ^ 2.
Proof.
  intros H. unfold project_per. cbv zeta. fold (project_par (Fin dx, Fin dy, Fin dz) (Fin bx, Fin by', Fin bz)).
  rewrite par_fin, unit_fin by exact H. unfold vbuild, vcomp. rewrite !fin_mul, !fin_sub, sumsq_skip_fin.
  set (B := sqrt (bx ^ 2 + by' ^ 2 + bz ^ 2)). assert (PB : 0 < B) by (apply sqrt_lt_R0, H).
  assert (HB : B * B = bx ^ 2 + by' ^ 2 + bz ^ 2) by (apply sqrt_sqrt; lra).
  set (a := along dx dy dz bx by' bz).
  set (q := (dx - bx / B * a) * (dx - bx / B * a) + (dy - by' / B * a) * (dy - by' / B * a)
            + (dz - bz / B * a) * (dz - bz / B * a)).
  assert (Q : 0 <= q).
  { unfold q. pose proof (Rle_0_sqr (dx - bx / B * a)). pose proof (Rle_0_sqr (dy - by' / B * a)).
    pose proof (Rle_0_sqr (dz - bz / B * a)). unfold Rsqr in *. lra. }
  exists (sqrt q). rewrite fin_sqrt by exact Q. split; [reflexivity|]. split; [apply sqrt_pos|].
  replace (sqrt q ^ 2) with (sqrt q * sqrt q) by ring. rewrite sqrt_sqrt by exact Q.
  assert (Ha : a * B = dx * bx + dy * by' + dz * bz).
  { unfold a, along. fold B. field. lra. }
  unfold q. apply Rmult_eq_reg_r with (B * B); [|nra].
  replace (((dx - bx / B * a) * (dx - bx / B * a) + (dy - by' / B * a) * (dy - by' / B * a) + (dz - bz / B * a) * (dz - bz / B * a)) * (B * B))
    with ((dx ^ 2 + dy ^ 2 + dz ^ 2) * (B * B) - 2 * (dx * bx + dy * by' + dz * bz) * (a * B) + (bx ^ 2 + by' ^ 2 + bz ^ 2) * (a * a))
    by (field; lra).
  rewrite Ha, <- HB. replace ((dx ^ 2 + dy ^ 2 + dz ^ 2 - a ^ 2) * (B * B)) with ((dx ^ 2 + dy ^ 2 + dz ^ 2) * (B * B) - (a * B) * (a * B)) by ring.
  replace (B * B * (a * a)) with ((a * B) * (a * B)) by ring. rewrite Ha. ring.
Qed.

Lemma qpar_fin k : qpar_coeff (kx k) = Fin (Urho k * Uv ^ 3 / Uq).
Proof.
  unfold qpar_coeff. rewrite fin_urho, fin_uv, fin_cube, fin_uqpar, fin_mul. pose proof Uq_pos.
  rewrite fin_div by lra. f_equal. field. lra.
Qed.

Definition hf_fun (k : consts R) (names : list string) (s : string) : row XR -> XR := fun r =>
  let p := project_par (vsub (ion_v s r) (com_velocity (map (fun s => (s, (ion_v s, rho_fun k s))) (sort_str names)) r)) (bfield r) in
  ((acube p + (p * asq (r ("w", "par", s))) * (aofZ 3 / a2)) * rho_fun k s r)%num.

Lemma join_sort_com k ions names s :
  usable ions names -> (1 < List.length names)%nat -> In s names ->
  dv (kx k) ions s (join "+" (sort_str names)) false =
  Ok (fun r => vsub (ion_v s r) (com_velocity (map (fun s => (s, (ion_v s, rho_fun k s))) (sort_str names)) r)).
Proof.
  intros U L Hs.
  assert (US : usable ions (sort_str names)).
  { destruct U. constructor.
    - apply sort_nonempty; assumption.
    - apply sort_NoDup; assumption.
    - intros t Ht. rewrite sort_In in Ht. auto.
    - intros t Ht. rewrite sort_In in Ht. auto.
    - intros t Ht. rewrite sort_In in Ht. auto. }
  rewrite (dv_com k ions (sort_str names) s US); [|rewrite sort_length; exact L|apply sort_In, Hs].
  replace (sort_str (sort_str names)) with (sort_str names); [reflexivity|].
  symmetry. apply sort_idem.
Qed.

Lemma heat_flux_cols k ions names :
  usable ions names -> (1 < List.length names)%nat ->
  per_species ions (fun s => bind (ion_rho (kx k) s) (fun rho =>
       bind (dv (kx k) ions s (join "+" (sort_str names)) false) (fun d =>
                Ok (fun r =>
                  let p := project_par (d r) (bfield r) in
                  ((acube p + (p * asq (r ("w", "par", s))) * (aofZ 3 / a2)) * rho r)%num)))) (sort_str names)
  = Ok (map (fun s => (s, hf_fun k names s)) (sort_str names)).
Proof.
  intros U L. apply (per_species_ok ions _ (hf_fun k names)); try apply U.
  intros s Hs. rewrite ion_rho_ok by (apply U, Hs). cbn [bind].
  rewrite (join_sort_com k ions names s U L Hs). reflexivity.
Qed.

(** the parallel drift of species s relative to the centre of mass of all the species *)
Definition par_drift (k : consts R) (names : list string) (n vx vy vz : string -> R) (bx by' bz : R) (s : string) : R :=
  let rho := fun s => n s * mmp k s in
  let mean := fun v => Rsum (map (fun s => v s * rho s) names) / Rsum (map rho names) in
  along (vx s - mean vx) (vy s - mean vy) (vz s - mean vz) bx by' bz.

Lemma hf_fun_fin k names r n vx vy vz w bx by' bz s :
  (forall s, In s names -> r ("n", "", s) = Fin (n s)) ->
  (forall s, In s names -> has_v r s (vx s) (vy s) (vz s)) ->
  Rsum (map (fun s => n s * mmp k s) names) <> 0 ->
  In s names -> r ("w", "par", s) = Fin (w s) -> has_b r bx by' bz -> 0 < bx ^ 2 + by' ^ 2 + bz ^ 2 ->
  hf_fun k names s r =
  Fin ((par_drift k names n vx vy vz bx by' bz s ^ 3
        + 3 / 2 * par_drift k names n vx vy vz bx by' bz s * w s ^ 2) * (n s * mmp k s)).
Proof.
  intros Hn Hv NZ Hs Hw (Bx & By & Bz) PB. unfold hf_fun. cbv zeta.
  rewrite (com_velocity_val k names r n vx vy vz Hn Hv NZ).
  destruct (Hv s Hs) as (Vx & Vy & Vz). unfold ion_v. rewrite Vx, Vy, Vz, vsub_fin.
  unfold bfield. rewrite Bx, By, Bz, par_fin by exact PB.
  unfold par_drift. cbv zeta. unfold Rmean.
  set (p := along _ _ _ _ _ _). rewrite Hw, (rho_fun_fin k s r (n s) (Hn s Hs)), fin_cube, fin_sq, fin_ofZ, fin_a2.
  rewrite fin_div by lra. rewrite !fin_mul, fin_add, fin_mul. unfold Rrho. f_equal. field.
Qed.

(** Q in SI is the sum over the species of rho (v^3 + 3/2 v w^2), v the species' velocity along B in the
    centre-of-mass frame and w its parallel thermal speed *)
Theorem C114_heat_flux :
  forall ions names k r n vx vy vz w bx by' bz, positive k -> usable ions names -> (1 < List.length names)%nat ->
  (forall s, In s names -> r ("n", "", s) = Fin (n s) /\ 0 < n s) ->
  (forall s, In s names -> has_v r s (vx s) (vy s) (vz s)) ->
  (forall s, In s names -> r ("w", "par", s) = Fin (w s)) ->
  has_b r bx by' bz -> 0 < bx ^ 2 + by' ^ 2 + bz ^ 2 ->
  let v := fun s => par_drift k names n vx vy vz bx by' bz s * Uv in
  let q := fun s => (n s * mmp k s * Urho k) * (v s ^ 3 + 3 / 2 * v s * (w s * Uv) ^ 2) in
  (exists Q, returns (heat_flux (kx k) ions [PStr (join "+" names)]) r Q /\ Q * / 10000000 = Rsum (map q names)) /\
  (forall s, In s names -> exists Q,
     returns_col (heat_flux (kx k) ions (map PStr names)) s r Q /\ Q * / 10000000 = q s).
Proof.
  intros ions names k r n vx vy vz w bx by' bz P U L Hn Hv Hw Hb PB. cbv zeta.
  assert (NZ : Rsum (map (fun s => n s * mmp k s) names) <> 0).
  { apply Rgt_not_eq, Rsum_pos_cons; [apply U|]. intros s Hs.
    apply Rmult_lt_0_compat; [apply Hn, Hs|apply mmp_pos; [exact P|apply U, Hs]]. }
  pose proof (heat_flux_cols k ions names U L) as HC. cbv beta zeta in HC.
  destruct (sort_two_up names L) as (a & b & l & E).
  assert (EU : / 10000000 = Uq) by reflexivity. rewrite EU. pose proof Uq_pos as PU.
  split.
  - eexists; split.
    + unfold heat_flux. rewrite chk_join by apply U. cbn [bind]. rewrite E. cbv beta iota zeta. rewrite <- E.
      rewrite HC. cbn [bind total_or_each qmap]. eexists; split; [reflexivity|]. cbv beta.
      rewrite cols_at_map.
      rewrite (sum_skip_list names _ (fun s => (par_drift k names n vx vy vz bx by' bz s ^ 3
        + 3 / 2 * par_drift k names n vx vy vz bx by' bz s * w s ^ 2) * (n s * mmp k s))).
      * rewrite qpar_fin, fin_mul. reflexivity.
      * intros s Hs. apply (hf_fun_fin k names r n vx vy vz w bx by' bz s); auto. intros t Ht; apply Hn, Ht.
    + match goal with |- _ / _ * ?S * _ = _ => replace (Urho k * Uv ^ 3 / Uq * S * Uq) with ((Urho k * Uv ^ 3) * S) by (field; lra) end.
      rewrite <- Rsum_map_scal. f_equal. apply map_ext. intros s. ring.
  - intros s Hs. eexists; split.
    + unfold heat_flux. rewrite chk_many by (try apply U; lia). cbn [bind]. rewrite E. cbv beta iota zeta. rewrite <- E.
      rewrite HC. cbn [bind].
      assert (TE : total_or_each sum_skip (map PStr names) (map (fun s => (s, hf_fun k names s)) (sort_str names))
              = Each (map (fun s => (s, hf_fun k names s)) (sort_str names))).
      { destruct names as [|x [|y m]]; simpl in L; try lia. reflexivity. }
      apply (each_col (g := fun s r => (qpar_coeff (kx k) * hf_fun k names s r)%num) (names := names)).
      * rewrite TE. cbn [qmap]. rewrite map_map. reflexivity.
      * exact Hs.
      * cbv beta. rewrite (hf_fun_fin k names r n vx vy vz w bx by' bz s); auto.
        -- rewrite qpar_fin, fin_mul. reflexivity.
        -- intros t Ht; apply Hn, Ht.
    + field. lra.
Qed.
Print Assumptions C114_heat_flux.

Theorem C114_needs_two_species :
  forall (K : consts XR) ions s, legal s -> In s ions -> heat_flux K ions [PStr s] = Err ValueError.
Proof. intros K ions s L I. unfold heat_flux. rewrite chk_one by assumption. reflexivity. Qed.
Print Assumptions C114_needs_two_species.

(** reversing the magnetic field reverses the heat flux *)
Theorem C114_reverses_with_field :
  forall ions names k r r' n vx vy vz w bx by' bz Q Q', positive k -> usable ions names -> (1 < List.length names)%nat ->
  (forall s, In s names -> r ("n", "", s) = Fin (n s) /\ 0 < n s) ->
  (forall s, In s names -> has_v r s (vx s) (vy s) (vz s)) ->
  (forall s, In s names -> r ("w", "par", s) = Fin (w s)) ->
  (forall s, In s names -> r' ("n", "", s) = Fin (n s)) ->
  (forall s, In s names -> has_v r' s (vx s) (vy s) (vz s)) ->
  (forall s, In s names -> r' ("w", "par", s) = Fin (w s)) ->
  has_b r bx by' bz -> has_b r' (- bx) (- by') (- bz) -> 0 < bx ^ 2 + by' ^ 2 + bz ^ 2 ->
  returns (heat_flux (kx k) ions [PStr (join "+" names)]) r Q ->
  returns (heat_flux (kx k) ions [PStr (join "+" names)]) r' Q' ->
  Q' = - Q.
Proof.
  intros ions names k r r' n vx vy vz w bx by' bz Q Q' P U L Hn Hv Hw Hn' Hv' Hw' Hb Hb' PB H H'.
  destruct (C114_heat_flux ions names k r n vx vy vz w bx by' bz P U L Hn Hv Hw Hb PB) as ((q & F & G) & _).
  assert (PB' : 0 < (- bx) ^ 2 + (- by') ^ 2 + (- bz) ^ 2) by nra.
  destruct (C114_heat_flux ions names k r' n vx vy vz w (- bx) (- by') (- bz) P U L
              (fun s Hs => conj (Hn' s Hs) (proj2 (Hn s Hs))) Hv' Hw' Hb' PB') as ((q' & F' & G') & _).
  rewrite (returns_fun _ _ _ _ H F), (returns_fun _ _ _ _ H' F').
  assert (EA : forall s, par_drift k names n vx vy vz (- bx) (- by') (- bz) s = - par_drift k names n vx vy vz bx by' bz s).
  { intros s. unfold par_drift, along. cbv zeta.
    replace ((- bx) ^ 2 + (- by') ^ 2 + (- bz) ^ 2) with (bx ^ 2 + by' ^ 2 + bz ^ 2) by ring.
    assert (B : 0 < sqrt (bx ^ 2 + by' ^ 2 + bz ^ 2)) by (apply sqrt_lt_R0, PB).
    set (B0 := sqrt _) in *. unfold Rdiv. ring. }
  apply Rmult_eq_reg_r with (/ 10000000); [|lra]. rewrite G'.
  replace (- q * / 10000000) with (- (q * / 10000000)) by ring. rewrite G.
  transitivity (-1 * Rsum (map (fun s => n s * mmp k s * Urho k *
     ((par_drift k names n vx vy vz bx by' bz s * Uv) ^ 3 + 3 / 2 * (par_drift k names n vx vy vz bx by' bz s * Uv) * (w s * Uv) ^ 2)) names)).
  - rewrite <- Rsum_map_scal. f_equal. apply map_ext. intros s. rewrite EA. ring.
  - ring.
Qed.
Print Assumptions C114_reverses_with_field.

(* =============================================================== C115 *)
(** ln of the ratio of two bi-Maxwellians at the beam velocity; d is the projected drift, along B and across *)
Theorem C115_vdf_ratio :
  forall k ions beam core r n1 n2 w1par w1per w2par w2per vx vy vz ux uy uz bx by' bz,
  positive k -> usable ions [beam] -> usable ions [core] -> beam <> core -> 0 < zcharge beam -> 0 < zcharge core ->
  r ("n", "", core) = Fin n1 -> r ("n", "", beam) = Fin n2 ->
  r ("w", "par", core) = Fin w1par -> r ("w", "per", core) = Fin w1per ->
  r ("w", "par", beam) = Fin w2par -> r ("w", "per", beam) = Fin w2per ->
  has_v r beam vx vy vz -> has_v r core ux uy uz -> has_b r bx by' bz -> 0 < bx ^ 2 + by' ^ 2 + bz ^ 2 ->
  0 < n1 -> 0 < n2 -> 0 < w1par -> 0 < w1per -> 0 < w2par -> 0 < w2per ->
  let q := fun s => sqrt (mmp k s / zcharge s) in
  let dx := q beam * vx - q core * ux in
  let dy := q beam * vy - q core * uy in
  let dz := q beam * vz - q core * uz in
  let dpar := (dx * bx + dy * by' + dz * bz) / sqrt (bx ^ 2 + by' ^ 2 + bz ^ 2) in
  plain (vdf_ratio (kx k) ions beam core) r
    (ln (n2 / n1 * (w1par / w2par * (w1per / w2per) ^ 2))
     + ((dpar / w1par) ^ 2 + (dx ^ 2 + dy ^ 2 + dz ^ 2 - dpar ^ 2) / w1per ^ 2)).
Proof.
  intros k ions beam core r n1 n2 w1par w1per w2par w2per vx vy vz ux uy uz bx by' bz
    P U0 U1 Hne Z0 Z1 N1 N2 W1 W1' W2 W2' V0 V1 (Bx & By & Bz) PB Pn1 Pn2 P1 P1' P2 P2'. cbv zeta.
  destruct (dv_proj_fin k ions beam core r _ _ _ _ _ _ P U0 U1 Hne Z0 Z1 V0 V1) as (f & F & G).
  assert (I0 : In beam ions) by (apply U0; left; reflexivity).
  assert (I1 : In core ions) by (apply U1; left; reflexivity).
  unfold vdf_ratio. rewrite two_single_ok; try assumption; [|apply U0; left; reflexivity|apply U1; left; reflexivity].
  cbn [bind]. cbv beta iota. apply mem_str_In in I0. apply mem_str_In in I1. rewrite I0, I1. cbn [andb negb].
  rewrite F. cbn [bind]. eexists; split; [reflexivity|]. cbv zeta beta.
  rewrite N1, N2, W1, W1', W2, W2', G. unfold bfield. rewrite Bx, By, Bz.
  fold (m2q k beam). fold (m2q k core).
  rewrite par_fin by exact PB.
  destruct (per_fin (m2q k beam * vx - m2q k core * ux) (m2q k beam * vy - m2q k core * uy)
     (m2q k beam * vz - m2q k core * uz) bx by' bz PB) as (p & Ep & _ & Sp).
  rewrite Ep. rewrite !fin_div by lra. rewrite !fin_sq, sum_skip2, !fin_mul.
  rewrite fin_tln.
  - rewrite fin_add. fold (along (m2q k beam * vx - m2q k core * ux) (m2q k beam * vy - m2q k core * uy)
     (m2q k beam * vz - m2q k core * uz) bx by' bz). rewrite <- Sp. f_equal. f_equal.
    + f_equal. ring.
    + field. lra.
  - assert (forall a b, 0 < a -> 0 < b -> 0 < a / b) as DP
      by (intros a b Ha Hb; unfold Rdiv; apply Rmult_lt_0_compat; [exact Ha|apply Rinv_0_lt_compat, Hb]).
    repeat apply Rmult_lt_0_compat; try (apply Rinv_0_lt_compat); assumption.
Qed.
Print Assumptions C115_vdf_ratio.

(** which calls are rejected: totals, and a species compared with itself *)
Theorem C115_rejections :
  forall (K : consts XR) ions, 
  (forall names s, usable ions names -> (1 < List.length names)%nat -> legal s -> In s ions ->
     vdf_ratio K ions (join "+" names) s = Err ValueError /\ vdf_ratio K ions s (join "+" names) = Err ValueError) /\
  (forall s, legal s -> In s ions -> vdf_ratio K ions s s = Err NotImplementedError).
Proof.
  intros K ions. split.
  - intros names s U L Ls Is. unfold vdf_ratio, two_single. rewrite chk_join by apply U. rewrite chk_one by assumption.
    destruct (sort_two_up names L) as (x & y & l & E). rewrite E. split; reflexivity.
  - intros s L I. unfold vdf_ratio. rewrite two_single_ok by assumption. cbn [bind]. cbv beta iota.
    apply mem_str_In in I. rewrite I. cbn [andb negb]. unfold dv. rewrite String.eqb_refl. reflexivity.
Qed.
Print Assumptions C115_rejections.

(* =============================================================== C121 *)
Lemma velocity1_vone (K : consts XR) ions s m f : velocity K ions [PStr s] m = Ok (VOne f) -> velocity1 K ions s m = Ok f.
Proof. intros H. unfold velocity1. rewrite H. reflexivity. Qed.

(** the Coulomb number is the collision frequency times the expansion time: distance to the Sun over the
    speed of the whole plasma *)
Theorem C121_coulomb_number :
  forall k ions erf au species frame_ sa sb both r nu x y z d,
  usable ions [sa] -> usable ions [sb] ->
  plain (nuc (kx k) ions erf sa sb both) r nu ->
  returnsV (velocity (kx k) ions [PStr (join "+" species)] false) r x y z -> 0 < x ^ 2 + y ^ 2 + z ^ 2 ->
  distance2sun au frame_ r = Ok (Fin d) ->
  exists f, nc (kx k) ions erf au species (Some frame_) sa sb both = Ok f /\
    f r = Ok (Fin ((nu * / 10000000) * (d / (sqrt (x ^ 2 + y ^ 2 + z ^ 2) * Uv)))).
Proof.
  intros k ions erf au species frame_ sa sb both r nu x y z d U0 U1 (g & G & Gv) (f & F & Fv) PV D.
  unfold nc. rewrite two_single_ok; [|apply U0; left; reflexivity|apply U1; left; reflexivity
                                     |apply U0; left; reflexivity|apply U1; left; reflexivity].
  cbn [bind]. cbv beta iota. rewrite (velocity1_vone _ _ _ _ _ F). cbn [bind]. rewrite G. cbn [bind].
  eexists; split; [reflexivity|]. cbv beta. rewrite D. cbn [bind]. cbv zeta.
  rewrite Fv, Gv, vmag_fin. replace (x * x + y * y + z * z) with (x ^ 2 + y ^ 2 + z ^ 2) by ring.
  pose proof (sqrt_lt_R0 _ PV). pose proof Uv_pos.
  unfold u_distance2sun, u_nc. rewrite fin_ofZ, fin_uv, fin_unuc, fin_a1, !fin_mul.
  rewrite fin_div by (apply Rgt_not_eq, Rmult_lt_0_compat; assumption). rewrite fin_mul, fin_div by lra.
  do 2 f_equal. change Uq with (/ 10000000). field. split; apply Rgt_not_eq; assumption.
Qed.
Print Assumptions C121_coulomb_number.

Theorem C121_needs_spacecraft_and_single_species :
  forall (K : consts XR) ions erf au species sa sb both, legal sa -> legal sb -> In sa ions -> In sb ions ->
  nc K ions erf au species None sa sb both = Err ValueError /\
  (forall names sc, usable ions names -> (1 < List.length names)%nat ->
     nc K ions erf au species sc (join "+" names) sb both = Err ValueError /\
     nc K ions erf au species sc sa (join "+" names) both = Err ValueError).
Proof.
  intros K ions erf au species sa sb both L0 L1 I0 I1. split.
  - unfold nc. rewrite two_single_ok by assumption. reflexivity.
  - intros names sc U L. unfold nc, two_single. rewrite chk_join by apply U. rewrite !chk_one by assumption.
    destruct (sort_two_up names L) as (x & y & l & E). rewrite E. split; reflexivity.
Qed.
Print Assumptions C121_needs_spacecraft_and_single_species.

(* =============================================================== C122 *)
Lemma legal_join_comma names : (forall s, In s names -> legal s) -> has_char comma (join "+" names) = false.
Proof.
  intros H. induction names as [|a [|b l] IH].
  - reflexivity.
  - simpl. apply H. left; reflexivity.
  - change (join "+" (a :: b :: l)) with (a ++ ("+" ++ join "+" (b :: l)))%string.
    rewrite !has_char_app. rewrite IH by (intros s Hs; apply H; right; exact Hs).
    destruct (H a (or_introl eq_refl)) as [_ ->]. reflexivity.
Qed.
Lemma usable_sorted ions names : usable ions names -> usable ions (sort_str names).
Proof.
  intros U. destruct U. constructor.
  - apply sort_nonempty; assumption.
  - apply sort_NoDup; assumption.
  - intros t Ht. rewrite sort_In in Ht. auto.
  - intros t Ht. rewrite sort_In in Ht. auto.
  - intros t Ht. rewrite sort_In in Ht. auto.
Qed.
Lemma com_or_own k ions names r n vx vy vz :
  positive k -> usable ions names ->
  (forall s, In s names -> r ("n", "", s) = Fin (n s) /\ 0 < n s) ->
  (forall s, In s names -> has_v r s (vx s) (vy s) (vz s)) ->
  let rho := fun s => n s * mmp k s in
  let mean := fun v => Rsum (map (fun s => v s * rho s) names) / Rsum (map rho names) in
  returnsV (velocity (kx k) ions [PStr (join "+" names)] false) r (mean vx) (mean vy) (mean vz).
Proof.
  intros P U Hn Hv. cbv zeta.
  assert (W : forall s, In s names -> 0 < n s * mmp k s).
  { intros s Hs. apply Rmult_lt_0_compat; [apply Hn, Hs|apply mmp_pos; [exact P|apply U, Hs]]. }
  destruct names as [|a [|b l]].
  - exfalso. apply (us_ne _ _ U). reflexivity.
  - simpl join. eexists; split; [apply velocity_one; apply U; left; reflexivity|].
    destruct (Hv a (or_introl eq_refl)) as (A & B & C). unfold ion_v. rewrite A, B, C.
    pose proof (W a (or_introl eq_refl)). cbn [map Rsum].
    assert (Q : forall v, (v * (n a * mmp k a) + 0) / (n a * mmp k a + 0) = v) by (intros v; rewrite !Rplus_0_r; field; split; [apply Rgt_not_eq, mmp_pos; [exact P|apply U; left; reflexivity]|apply Rgt_not_eq, Hn; left; reflexivity]).
    rewrite !Q. reflexivity.
  - eexists; split; [apply (velocity_com k ions (a :: b :: l) U); simpl; lia|].
    apply com_velocity_val; [intros s Hs; apply Hn, Hs|exact Hv|].
    apply Rgt_not_eq, Rsum_pos_cons; [apply U|exact W].
Qed.

Lemma Rmean_perm w v l1 l2 : Permutation l1 l2 -> Rmean w v l1 = Rmean w v l2.
Proof.
  intros H. unfold Rmean. rewrite (Rsum_perm _ _ (Permutation_map (fun s => v s * w s) H)).
  rewrite (Rsum_perm _ _ (Permutation_map w H)). reflexivity.
Qed.

(** no comma: centre-of-mass velocity and total mass density of the named species; one comma, "A,B": the
    velocity of A relative to B and the mass density of B; the field is the plasma's field *)
Theorem C122_turbulence_from_species :
  forall k ions names r n vx vy vz, positive k -> usable ions names ->
  (forall s, In s names -> r ("n", "", s) = Fin (n s) /\ 0 < n s) ->
  (forall s, In s names -> has_v r s (vx s) (vy s) (vz s)) ->
  let rho := fun s => n s * mmp k s in
  let mean := fun v => Rsum (map (fun s => v s * rho s) names) / Rsum (map rho names) in
  exists fv fb fr, build_alfvenic (kx k) ions (join "+" names) = Ok (fv, fb, fr) /\
    fv r = (Fin (mean vx), Fin (mean vy), Fin (mean vz)) /\
    fb r = (r ("b", "x", ""), r ("b", "y", ""), r ("b", "z", "")) /\
    fr r = Fin (Rsum (map rho names)).
Proof.
  intros k ions names r n vx vy vz P U Hn Hv. cbv zeta.
  destruct (com_or_own k ions names r n vx vy vz P U Hn Hv) as (f & F & Fv). cbv zeta in Fv.
  destruct (rho_total_val ions names k r n U (fun s Hs => proj1 (Hn s Hs))) as (g & G & Gv).
  unfold build_alfvenic. rewrite split_on_nochar by (apply legal_join_comma, U).
  rewrite chk_join by apply U. cbn [bind]. rewrite (velocity1_vone _ _ _ _ _ F). cbn [bind]. rewrite G. cbn [bind].
  exists f, bfield, g. auto.
Qed.
Print Assumptions C122_turbulence_from_species.

Theorem C122_turbulence_of_relative_motion :
  forall k ions names0 names1 r n vx vy vz, positive k -> usable ions names0 -> usable ions names1 ->
  ~ Permutation names0 names1 ->
  (forall s, In s names0 \/ In s names1 -> r ("n", "", s) = Fin (n s) /\ 0 < n s) ->
  (forall s, In s names0 \/ In s names1 -> has_v r s (vx s) (vy s) (vz s)) ->
  let rho := fun s => n s * mmp k s in
  let mean := fun names v => Rsum (map (fun s => v s * rho s) names) / Rsum (map rho names) in
  exists fv fb fr, build_alfvenic (kx k) ions (join "+" names0 ++ "," ++ join "+" names1) = Ok (fv, fb, fr) /\
    fv r = (Fin (mean names0 vx - mean names1 vx), Fin (mean names0 vy - mean names1 vy),
            Fin (mean names0 vz - mean names1 vz)) /\
    fb r = (r ("b", "x", ""), r ("b", "y", ""), r ("b", "z", "")) /\
    fr r = Fin (Rsum (map rho names1)).
Proof.
  intros k ions names0 names1 r n vx vy vz P U0 U1 NP Hn Hv. cbv zeta.
  pose proof (usable_sorted _ _ U0) as S0. pose proof (usable_sorted _ _ U1) as S1.
  assert (Hn0 : forall s, In s (sort_str names0) -> r ("n", "", s) = Fin (n s) /\ 0 < n s)
    by (intros s Hs; rewrite sort_In in Hs; auto).
  assert (Hn1 : forall s, In s (sort_str names1) -> r ("n", "", s) = Fin (n s) /\ 0 < n s)
    by (intros s Hs; rewrite sort_In in Hs; auto).
  destruct (com_or_own k ions (sort_str names0) r n vx vy vz P S0 Hn0
    (fun s Hs => Hv s (or_introl (proj1 (sort_In _ _) Hs)))) as (f & F & Fv). cbv zeta in Fv.
  destruct (com_or_own k ions (sort_str names1) r n vx vy vz P S1 Hn1
    (fun s Hs => Hv s (or_intror (proj1 (sort_In _ _) Hs)))) as (h & H & Hvv). cbv zeta in Hvv.
  destruct (rho_total_val ions (sort_str names1) k r n S1 (fun s Hs => proj1 (Hn1 s Hs))) as (g & G & Gv).
  unfold build_alfvenic.
  change (join "+" names0 ++ "," ++ join "+" names1) with (join "+" names0 ++ String comma (join "+" names1)).
  rewrite split_on_app by (apply legal_join_comma, U0).
  rewrite (split_on_nochar comma (join "+" names1)) by (apply legal_join_comma, U1).
  rewrite !chk_join by (try apply U0; apply U1). cbn [bind]. cbv zeta.
  assert (NE : join "+" (sort_str names0) <> join "+" (sort_str names1)).
  { intros E. apply NP.
    assert (Q : sort_str (sort_str names0) = sort_str (sort_str names1)).
    { pose proof (chk_join ions (sort_str names0) (us_ne _ _ S0) (us_legal _ _ S0) (us_in _ _ S0)) as C0.
      pose proof (chk_join ions (sort_str names1) (us_ne _ _ S1) (us_legal _ _ S1) (us_in _ _ S1)) as C1.
      rewrite E in C0. rewrite C0 in C1. injection C1 as C1. exact C1. }
    rewrite !sort_idem in Q.
    apply Permutation_trans with (sort_str names0); [apply Permutation_sym, sort_perm|]. rewrite Q. apply sort_perm. }
  unfold dv. apply String.eqb_neq in NE. rewrite NE.
  rewrite (velocity1_vone _ _ _ _ _ F), (velocity1_vone _ _ _ _ _ H). cbn [bind]. rewrite G. cbn [bind].
  exists (fun r0 => vsub (f r0) (h r0)), bfield, g. split; [reflexivity|]. split; [|split; [reflexivity|]].
  - cbv beta. rewrite Fv, Hvv, vsub_fin.
    pose proof (sort_perm names0) as Q0. pose proof (sort_perm names1) as Q1.
    repeat match goal with |- context [Rsum (map (fun s => ?v s * (n s * mmp k s)) ?l) / Rsum (map (fun s => n s * mmp k s) ?l)] =>
       change (Rsum (map (fun s => v s * (n s * mmp k s)) l) / Rsum (map (fun s => n s * mmp k s) l))
         with (Rmean (fun s => n s * mmp k s) v l) end.
    rewrite !(Rmean_perm _ _ _ _ Q0), !(Rmean_perm _ _ _ _ Q1). reflexivity.
  - rewrite Gv. f_equal. apply (Rsum_perm _ _ (Permutation_map _ (sort_perm names1))).
Qed.
Print Assumptions C122_turbulence_of_relative_motion.

Lemma split_three c a b s : has_char c a = false -> has_char c b = false ->
  exists x y z l, split_on c (a ++ String c (b ++ String c s)) = x :: y :: z :: l.
Proof.
  intros Ha Hb. rewrite split_on_app, split_on_app by assumption.
  pose proof (split_on_nonempty c s). destruct (split_on c s) as [|z l]; [congruence|]. eauto 6.
Qed.
(** the same set of species on both sides of the comma, and two commas, are rejected *)
Theorem C122_rejections :
  forall (K : consts XR) ions,
  (forall names0 names1, usable ions names0 -> Permutation names0 names1 ->
     build_alfvenic K ions (join "+" names0 ++ "," ++ join "+" names1) = Err NotImplementedError) /\
  (forall a b rest, has_char comma a = false -> has_char comma b = false ->
     build_alfvenic K ions (a ++ "," ++ b ++ "," ++ rest) = Err ValueError).
Proof.
  intros K ions. split.
  - intros names0 names1 U HP. unfold build_alfvenic.
    assert (U1 : usable ions names1).
    { destruct U. constructor.
      - intros ->. apply Permutation_sym, Permutation_nil in HP. contradiction.
      - apply (Permutation_NoDup HP); assumption.
      - intros s Hs. apply us_legal. apply (Permutation_in s (Permutation_sym HP) Hs).
      - intros s Hs. apply us_in. apply (Permutation_in s (Permutation_sym HP) Hs).
      - intros s Hs. apply us_known. apply (Permutation_in s (Permutation_sym HP) Hs). }
    change (join "+" names0 ++ "," ++ join "+" names1) with (join "+" names0 ++ String comma (join "+" names1)).
    rewrite split_on_app by (apply legal_join_comma, U).
    rewrite (split_on_nochar comma (join "+" names1)) by (apply legal_join_comma, U1).
    rewrite !chk_join by (try apply U; apply U1). cbn [bind]. cbv zeta.
    rewrite (sort_perm_invariant _ _ HP). unfold dv. rewrite String.eqb_refl. reflexivity.
  - intros a b rest Ha Hb. unfold build_alfvenic.
    destruct (split_three comma a b rest Ha Hb) as (x & y & z & l & E).
    change (a ++ "," ++ b ++ "," ++ rest) with (a ++ String comma (b ++ String comma rest)). rewrite E. reflexivity.
Qed.
Print Assumptions C122_rejections.

(* ============================================================ examples *)
(** the two-species row of PlasmaThms.v meets the hypotheses of every theorem above *)
Example extra_hypotheses_met :
  positive ex_k /\ 0 < c_e ex_k /\ usable ex_ions ["p1"; "a"] /\ usable ex_ions ["a"] /\ usable ex_ions ["p1"] /\
  0 < zcharge "a" /\ 0 < zcharge "p1" /\ ~ Permutation ["a"] ["p1"; "a"] /\
  has_v ex_row "a" 410 410 410 /\ has_v ex_row "p1" 400 400 400 /\ has_b ex_row 3 3 3 /\
  0 < (410 - 400) ^ 2 + (410 - 400) ^ 2 + (410 - 400) ^ 2 /\ 0 < 3 ^ 2 + 3 ^ 2 + 3 ^ 2 /\
  (forall s, In s ["p1"; "a"] -> exists n w, ex_row ("n", "", s) = Fin n /\ 0 < n /\
     ex_row ("w", "par", s) = Fin w /\ ex_row ("w", "per", s) = Fin w /\ ex_row ("w", "scalar", s) = Fin w /\ 0 < w).
Proof.
  split; [apply ex_positive|]. split; [simpl; lra|]. split; [apply ex_usable|].
  split; [apply (usable_sub _ _ _ ex_usable); simpl; auto|]. split; [apply (usable_sub _ _ _ ex_usable); simpl; auto|].
  split; [unfold zcharge, of_kind; simpl; lra|]. split; [unfold zcharge, of_kind; simpl; lra|].
  split; [intros H; apply Permutation_length in H; discriminate|].
  split; [repeat split|]. split; [repeat split|]. split; [repeat split|]. split; [lra|]. split; [lra|].
  intros s [<-|[<-|[]]]; [exists 20, 40|exists 1, 30]; repeat split; lra.
Qed.

(* ================================================================ C13 *)
(** BField.pressure is B^2/(2 mu0) in SI, and beta times it is the thermal pressure *)
Theorem C13_magnetic_pressure :
  forall k r bx by' bz, positive k -> has_b r bx by' bz ->
  exists p, pb (kx k) r = Fin p /\ p * Upth * (2 * c_mu0 k) = (bx ^ 2 + by' ^ 2 + bz ^ 2) * Ub ^ 2.
Proof.
  intros k r bx by' bz P Hb. unfold pb. rewrite (bmag_sq r bx by' bz Hb), fin_ub, fin_upth, fin_sq, fin_a2.
  simpl c_mu0. rewrite !fin_mul. pose proof Upth_pos. destruct P.
  rewrite fin_div by (apply Rgt_not_eq; repeat apply Rmult_lt_0_compat; lra). rewrite fin_mul.
  eexists; split; [reflexivity|]. field. lra.
Qed.
Print Assumptions C13_magnetic_pressure.

Theorem C13_beta_times_magnetic_pressure :
  forall ions names k c r n w bx by' bz p b pm, positive k -> usable ions names ->
  (forall s, In s names -> r ("n", "", s) = Fin (n s)) ->
  (forall s, In s names -> r ("w", c, s) = Fin (w s)) ->
  has_b r bx by' bz -> 0 < bx ^ 2 + by' ^ 2 + bz ^ 2 ->
  returns (pth (kx k) ions [PStr (join "+" names)] c) r p ->
  returns (beta (kx k) ions [PStr (join "+" names)] c) r b ->
  pb (kx k) r = Fin pm -> b * pm = p.
Proof.
  intros ions names k c r n w bx by' bz p b pm P U Hn Hw Hb PB Hp Hbeta Hpm.
  destruct (C13_magnetic_pressure k r bx by' bz P Hb) as (q & Q & E). rewrite Q in Hpm. injection Hpm as <-.
  destruct Hp as (f & F & Fv). unfold beta in Hbeta. rewrite F in Hbeta. cbn [bind qmap] in Hbeta.
  destruct Hbeta as (g & G & Gv). injection G as <-. rewrite Fv, (bmag_sq r bx by' bz Hb), beta_coeff_fin in Gv.
  rewrite fin_div, fin_mul in Gv by nra. injection Gv as <-. unfold Rbeta_coeff.
  pose proof Upth_pos. pose proof Ub_pos. destruct P.
  assert (Eq : q = (bx ^ 2 + by' ^ 2 + bz ^ 2) * Ub ^ 2 / (Upth * (2 * c_mu0 k))) by (rewrite <- E; field; lra).
  rewrite Eq. replace (bx * bx + by' * by' + bz * bz) with (bx ^ 2 + by' ^ 2 + bz ^ 2) by ring.
  set (B2 := bx ^ 2 + by' ^ 2 + bz ^ 2) in *. field. repeat split; lra.
Qed.
Print Assumptions C13_beta_times_magnetic_pressure.
