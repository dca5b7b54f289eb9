(** Theorems about the program run in IEEE 754 double precision: rounding, underflow, overflow, infinities and NaN included. *)
From Coq Require Import Reals Lra List Bool ZArith Lia Psatz String Permutation.
From Flocq Require Import Core.Core IEEE754.BinarySingleNaN.
From Verif Require Import Py PyStr Sort Num NumB64 Species SpeciesProofs Frame Plasma PlasmaProofs PlasmaProofs2 PlasmaProofs4 Alfven Tools ToolsThms.
Import ListNotations.
Open Scope R_scope.

(* ------------------------------------------------------------------ C131: Alfvenic quantities *)
Lemma of_SF (x : b64) m e : B2SF x = SpecFloat.S754_finite false m e -> nonneg x /\ is_finite x = true /\ B2R x = IZR (Zpos m) * bpow radix2 e.
Proof. destruct x as [s|s| |s m' e' H]; cbn [B2SF]; intro E; try discriminate. injection E as -> -> ->. repeat split. Qed.
Lemma half64 : nonneg (Alfven.half (T := b64)) /\ is_finite (Alfven.half (T := b64)) = true /\ B2R (Alfven.half (T := b64)) <> 0.
Proof.
  assert (E : B2SF (Alfven.half (T := b64)) = SpecFloat.S754_finite false 4503599627370496 (-53)) by (vm_compute; reflexivity).
  destruct (of_SF _ _ _ E) as [H1 [H2 H3]]. split; [exact H1|]. split; [exact H2|]. rewrite H3. apply Rmult_integral_contrapositive_currified; [apply IZR_neq; discriminate|]. apply Rgt_not_eq, bpow_gt_0.
Qed.
Lemma energy_nonneg (v : vec b64) : nonneg (energy v).
Proof.
  unfold energy. assert (S : nonneg (sumsq_skip v)).
  { apply nonneg_sum_skip. intros x I N. cbn [In] in I.
    assert (Q : forall y : b64, is_nan (asq y) = false -> nonneg (asq y)) by (intros y Ny; apply nonneg_sq; destruct (is_nan y) eqn:E; [rewrite (nan_sq y E) in Ny; discriminate|reflexivity]).
    destruct I as [<-|[<-|[<-|[]]]]; apply Q, N. }
  destruct half64 as [H1 [H2 H3]]. destruct (nonneg_mul _ _ H1 S) as [N|N]; [exfalso|exact N].
  revert N S H1 H2 H3. generalize (Alfven.half (T := b64)) (sumsq_skip v). intros h s N S H1 H2 H3.
  destruct (is_finite s) eqn:F.
  - destruct (mul_fin h s H2 F) as [[_ [Fm _]]|[_ E]]; [destruct (amul h s); discriminate|rewrite E in N; discriminate].
  - destruct s; try discriminate; [|contradiction]. destruct h; try discriminate. apply H3. reflexivity.
Qed.
(** The energies are never NaN and never negative. *)
Theorem C131_energies_never_negative : forall r : arow (T := b64), nonneg (e_plus r) /\ nonneg (e_minus r) /\ nonneg (e_v r) /\ nonneg (e_b r) /\ nonneg (e_tot r).
Proof.
  intro r. split; [exact (energy_nonneg _)|]. split; [exact (energy_nonneg _)|]. split; [exact (energy_nonneg _)|]. split; [exact (energy_nonneg _)|].
  exact (nonneg_add _ _ (energy_nonneg _) (energy_nonneg _)).
Qed.
(** The normalised cross helicity and residual energy are NaN or numbers between -1 and 1. *)
Theorem C131_normalised_quantities_bounded : forall r : arow (T := b64),
  (is_nan (sigma_c r) = true \/ is_finite (sigma_c r) = true /\ -1 <= B2R (sigma_c r) <= 1)
  /\ (is_nan (sigma_r r) = true \/ is_finite (sigma_r r) = true /\ -1 <= B2R (sigma_r r) <= 1).
Proof. intro r. split; [exact (normalised_difference _ _ (energy_nonneg _) (energy_nonneg _))|exact (normalised_difference _ _ (energy_nonneg _) (energy_nonneg _))]. Qed.
(** The ratios are NaN or not negative. *)
Lemma nonneg_div x y : nonneg x -> nonneg y -> is_nan (adiv x y) = true \/ nonneg (adiv x y) \/ (B2R y = 0 /\ is_finite y = true).
Proof.
  intros Nx Ny. destruct (is_finite y) eqn:Fy.
  - destruct (Req_dec (B2R y) 0) as [Z|NZ]; [auto|]. destruct (is_finite x) eqn:Fx.
    + right. left. destruct (div_fin x y Fx NZ) as [[_ [F E]]|[L E]].
      * apply nonneg_of; [exact F|]. rewrite E. apply rnd_pos. pose proof (nonneg_B2R x Nx). pose proof (nonneg_B2R y Ny). apply Rmult_le_pos; [assumption|]. left. apply Rinv_0_lt_compat. lra.
      * destruct x as [s|s| |s m e H]; cbn in Fx, Nx; try discriminate.
        -- cbn [B2R] in L. unfold Rdiv in L. rewrite Rmult_0_l, rnd_0, Rabs_R0 in L. pose proof (bpow_gt_0 radix2 1024). lra.
        -- destruct y as [s'|s'| |s' m' e' H']; cbn in Fy, Ny; try discriminate; [contradict NZ; reflexivity|]. rewrite E. subst. reflexivity.
    + destruct x as [s|s| |s m e H]; cbn in Fx, Nx; try discriminate; try contradiction. destruct y as [s'|s'| |s' m' e' H']; cbn in Fy, Ny; try discriminate; [contradict NZ; reflexivity|]. subst. cbn. auto.
  - destruct y as [s'|s'| |s' m' e' H']; cbn in Fy, Ny; try discriminate; try contradiction. subst. destruct x as [s|s| |s m e H]; cbn in Nx; try contradiction; subst; cbn; auto.
Qed.
(** The exact balance E+ + E- = 2 (Ev + Eb) is lost to rounding. *)
Definition b1 (x : Z) (d : BinNums.positive) : b64 := aofQ x d.
Definition row12 : arow (T := b64) := {| a_v := (b1 1 10, b1 0 1, b1 0 1); a_b := (b1 2 10, b1 0 1, b1 0 1); a_pol := None |}.
Theorem C131_exact_balance_refuted : exists r : arow (T := b64),
  is_finite (e_plus r) = true /\ is_finite (e_minus r) = true /\ aeqb (aadd (e_plus r) (e_minus r)) (amul a2 (e_tot r)) = false.
Proof. exists row12. split; [vm_compute; reflexivity|]. split; vm_compute; reflexivity. Qed.

(* ------------------------------------------------------------------ C132: swapping protons *)
Definition posnum (x : b64) : Prop := is_finite x = true /\ 0 < B2R x.
Lemma pos_sign x : posnum x -> Bsign x = false.
Proof.
  intros [F P]. destruct x as [s|s| |s m e H]; try discriminate F; [exfalso; cbn [B2R] in P; lra|]. destruct s; [|reflexivity]. exfalso. cbn [B2R] in P.
  pose proof (F2R_lt_0 radix2 (Float radix2 (cond_Zopp true (Zpos m)) e) ltac:(cbn; lia)). lra.
Qed.
Lemma one64 : is_finite (aofZ 1 : b64) = true /\ B2R (aofZ 1 : b64) = 1.
Proof.
  assert (E : B2SF (aofZ 1 : b64) = SpecFloat.S754_finite false 4503599627370496 (-52)) by (vm_compute; reflexivity).
  destruct (of_SF _ _ _ E) as [_ [H2 H3]]. split; [exact H2|]. rewrite H3. change (IZR 4503599627370496) with (bpow radix2 52). rewrite <- bpow_plus. reflexivity.
Qed.
Lemma mono64 : Monotone_exp fexp64.
Proof. intros x y H. unfold SpecFloat.fexp, SpecFloat.emin. lia. Qed.
Lemma ulp_1 : ulp radix2 fexp64 1 = bpow radix2 (-52).
Proof. change 1 with (bpow radix2 0). rewrite ulp_bpow. reflexivity. Qed.
Lemma succ_1 : succ radix2 fexp64 1 = 1 + bpow radix2 (-52).
Proof. rewrite succ_eq_pos by lra. rewrite ulp_1. reflexivity. Qed.
Lemma format_1 : generic_format radix2 fexp64 1.
Proof. change 1 with (bpow radix2 0). apply generic_format_bpow. unfold SpecFloat.fexp, SpecFloat.emin. lia. Qed.
(** a positive double y is less than 2^53 units in its last place *)
Lemma ulp_rel y : 0 < y -> y < bpow radix2 53 * ulp radix2 fexp64 y.
Proof.
  intro P. rewrite ulp_neq_0 by lra. unfold cexp. rewrite <- bpow_plus. apply Rlt_le_trans with (bpow radix2 (mag radix2 y)); [rewrite <- (Rabs_pos_eq y) at 1 by lra; apply bpow_mag_gt|]. apply bpow_le. unfold SpecFloat.fexp, SpecFloat.emin. lia.
Qed.
Lemma ratio_above_one x y : generic_format radix2 fexp64 x -> generic_format radix2 fexp64 y -> 0 < y -> y < x -> 1 < rnd (x / y).
Proof.
  intros Fx Fy P L. assert (S : y + ulp radix2 fexp64 y <= x) by (rewrite <- (succ_eq_pos radix2 fexp64 y) by lra; apply succ_le_lt; try assumption; apply _).
  pose proof (ulp_rel y P) as U. set (u := ulp radix2 fexp64 y) in *.
  assert (E : bpow radix2 53 * bpow radix2 (-53) = 1) by (rewrite <- bpow_plus; reflexivity). assert (P53 : 0 < bpow radix2 (-53)) by apply bpow_gt_0.
  assert (Q : 1 + bpow radix2 (-53) < x / y).
  { apply (Rmult_lt_reg_r y); [exact P|]. unfold Rdiv. rewrite Rmult_assoc, Rinv_l, Rmult_1_r by lra.
    assert (bpow radix2 (-53) * y < bpow radix2 (-53) * (bpow radix2 53 * u)) by (apply Rmult_lt_compat_l; assumption).
    replace (bpow radix2 (-53) * (bpow radix2 53 * u)) with u in H by (rewrite <- Rmult_assoc, (Rmult_comm (bpow radix2 (-53))), E; ring). lra. }
  apply Rlt_le_trans with (1 + bpow radix2 (-52)); [pose proof (bpow_gt_0 radix2 (-52)); lra|]. rewrite <- succ_1.
  cbn [round_mode]. apply round_N_ge_midp; [apply _|apply generic_format_succ; [apply _|apply format_1]|].
  rewrite (pred_succ_pos radix2 fexp64 1 format_1) by lra. rewrite succ_1. replace (bpow radix2 (-52)) with (2 * bpow radix2 (-53)); [lra|]. change (bpow radix2 (-52)) with (bpow radix2 (1 + -53)). rewrite bpow_plus. reflexivity.
Qed.
(** n2/n1 > 1, computed in double precision, says exactly that n2 > n1. *)
Lemma ratio_exact (x y : b64) : posnum x -> posnum y -> altb (aofZ 1) (adiv x y) = altb y x.
Proof.
  intros [Fx Px] [Fy Py]. destruct one64 as [F1 E1]. change (altb (aofZ 1) (adiv x y)) with (Bltb (aofZ 1) (adiv x y)). change (altb y x) with (Bltb y x).
  rewrite (Bltb_correct _ _ y x Fy Fx). assert (NZ : B2R y <> 0) by lra.
  assert (Gx : generic_format radix2 fexp64 (B2R x)) by apply (generic_format_B2R 53 1024). assert (Gy : generic_format radix2 fexp64 (B2R y)) by apply (generic_format_B2R 53 1024).
  assert (Low : B2R x <= B2R y -> 0 <= rnd (B2R x / B2R y) <= 1).
  { intro L. split; [apply rnd_pos; apply Rmult_le_pos; [lra|left; apply Rinv_0_lt_compat; lra]|]. rewrite <- rnd_1. apply rnd_le. apply (Rmult_le_reg_r (B2R y)); [lra|]. unfold Rdiv. rewrite Rmult_assoc, Rinv_l by lra. lra. }
  destruct (div_fin x y Fx NZ) as [[_ [F E]]|[L E]].
  - rewrite (Bltb_correct _ _ _ _ F1 F), E, E1. destruct (Rlt_bool_spec (B2R y) (B2R x)) as [L|L].
    + apply Rlt_bool_true. apply ratio_above_one; assumption.
    + apply Rlt_bool_false. apply Low, L.
  - assert (SG : adiv x y = B754_infinity false).
    { rewrite E, (pos_sign x (conj Fx Px)), (pos_sign y (conj Fy Py)). reflexivity. }
    rewrite SG. destruct (Rlt_bool_spec (B2R y) (B2R x)) as [Q|Q].
    + destruct (aofZ 1 : b64) as [s|s| |s m e H]; try discriminate; [cbn in E1; lra|]. reflexivity.
    + exfalso. pose proof (Low Q) as B. pose proof one_lt_max. rewrite Rabs_pos_eq in L by apply B. lra.
Qed.
(** C132: in double precision, a row with two positive finite densities leaves swap_protons with n(p1) >= n(p2), and it was exchanged exactly
    when n(p2) > n(p1). *)
Theorem C132_swap_orders_densities : forall (d : frame b64) out, swap_protons d = Ok out ->
  forall z r, In (z, r) (f_rows d) -> posnum (r ("n", "", "p1")%string) -> posnum (r ("n", "", "p2")%string) ->
  (swap_flag r = true <-> B2R (r ("n", "", "p1")%string) < B2R (r ("n", "", "p2")%string))
  /\ B2R (swap_row (f_cols d) r ("n", "", "p2")%string) <= B2R (swap_row (f_cols d) r ("n", "", "p1")%string).
Proof.
  intros d out H z r I P1 P2.
  assert (F : swap_flag r = Rlt_bool (B2R (r ("n", "", "p1")%string)) (B2R (r ("n", "", "p2")%string))).
  { unfold swap_flag, agtb. rewrite ratio_exact by assumption. apply (Bltb_correct _ _ _ _ (proj1 P1) (proj1 P2)). }
  assert (C : mem_key ("n", "", "p1")%string (f_cols d) = true /\ mem_key ("n", "", "p2")%string (f_cols d) = true).
  { unfold swap_protons in H. destruct (negb (has_label kS "p1" (f_cols d))); [discriminate|]. destruct (negb (has_label kS "p2" (f_cols d))); [discriminate|].
    match type of H with (if negb ?b then _ else _) = _ => destruct b eqn:B; [|discriminate] end. rewrite forallb_forall in B.
    split; [pose proof (B "p1"%string (or_introl eq_refl)) as Q|pose proof (B "p2"%string (or_intror (or_introl eq_refl))) as Q]; apply andb_prop in Q; apply Q. }
  split; [rewrite F; destruct (Rlt_bool_spec (B2R (r ("n", "", "p1")%string)) (B2R (r ("n", "", "p2")%string))); split; intro; try reflexivity; try assumption; try discriminate; lra|].
  unfold swap_row. rewrite F. change (of_species "p1" ("n", "", "p1")%string) with true. change (of_species "p1" ("n", "", "p2")%string) with false. change (of_species "p2" ("n", "", "p2")%string) with true.
  change (to_species "p2" ("n", "", "p1")%string) with ("n", "", "p2")%string. change (to_species "p1" ("n", "", "p2")%string) with ("n", "", "p1")%string. cbv iota. rewrite (proj1 C), (proj2 C).
  destruct (Rlt_bool_spec (B2R (r ("n", "", "p1")%string)) (B2R (r ("n", "", "p2")%string))); lra.
Qed.

Example C132_ex : posnum (bZ 3) /\ posnum (bZ 5) /\ altb (aofZ 1) (adiv (bZ 5) (bZ 3)) = true /\ altb (aofZ 1) (adiv (bZ 3) (bZ 5)) = false.
Proof.
  assert (P : forall x m e, B2SF x = SpecFloat.S754_finite false m e -> posnum x).
  { intros x m e E. destruct (of_SF _ _ _ E) as [_ [H2 H3]]. split; [exact H2|]. rewrite H3. apply Rmult_lt_0_compat; [apply IZR_lt; reflexivity|apply bpow_gt_0]. }
  split; [eapply P; vm_compute; reflexivity|]. split; [eapply P; vm_compute; reflexivity|]. split; vm_compute; reflexivity.
Qed.

(* ------------------------------------------------------------------ C133: totals *)
(** x <= y as numbers, or y is +infinity *)
Definition le64 (x y : b64) : Prop := y = B754_infinity false \/ is_finite x = true /\ is_finite y = true /\ B2R x <= B2R y.
Lemma le64_trans x y z : le64 x y -> le64 y z -> le64 x z.
Proof.
  intros [-> | [Fx [Fy L]]] [-> | [Fy' [Fz L']]]; unfold le64; auto; [discriminate|]. right. split; [assumption|]. split; [assumption|]. lra.
Qed.
Lemma le64_refl x : nonneg x -> le64 x x.
Proof. destruct x as [s|s| |s m e H]; unfold le64; cbn [nonneg]; intro N; try contradiction; try (right; split; [reflexivity|split; [reflexivity|apply Rle_refl]]). subst. auto. Qed.
Lemma le_add_l x y : nonneg x -> nonneg y -> le64 x (aadd x y).
Proof.
  intros Nx Ny. destruct (is_finite x) eqn:Fx; [destruct (is_finite y) eqn:Fy|].
  - destruct (add_fin x y Fx Fy) as [[_ [F E]]|[L [S E]]].
    + right. split; [exact Fx|]. split; [exact F|]. rewrite E. rewrite <- (rnd_id x) at 1. apply rnd_le. pose proof (nonneg_B2R y Ny). lra.
    + left. rewrite E. destruct (Bsign x) eqn:Sx; [|reflexivity]. exfalso. rewrite (nonneg_sign x Fx Nx Sx), (nonneg_sign y Fy Ny (eq_sym S)), Rplus_0_r, rnd_0, Rabs_R0 in L. pose proof (bpow_gt_0 radix2 1024). lra.
  - left. destruct y as [s|s| |s m e H]; try discriminate Fy; try contradiction Ny. cbn in Ny. subst s. destruct x as [s|s| |s m e H]; try discriminate Fx; try contradiction Nx; reflexivity.
  - left. destruct x as [s|s| |s m e H]; try discriminate Fx; try contradiction Nx. cbn in Nx. subst s. destruct y as [s|s| |s m e H]; try contradiction Ny; try reflexivity. cbn in Ny. subst. reflexivity.
Qed.
Lemma le_add_r x y : nonneg x -> nonneg y -> le64 y (aadd x y).
Proof.
  intros Nx Ny. destruct (is_finite x) eqn:Fx; [destruct (is_finite y) eqn:Fy|].
  - destruct (add_fin x y Fx Fy) as [[_ [F E]]|[L [S E]]].
    + right. split; [exact Fy|]. split; [exact F|]. rewrite E. rewrite <- (rnd_id y) at 1. apply rnd_le. pose proof (nonneg_B2R x Nx). lra.
    + left. rewrite E. destruct (Bsign x) eqn:Sx; [|reflexivity]. exfalso. rewrite (nonneg_sign x Fx Nx Sx), (nonneg_sign y Fy Ny (eq_sym S)), Rplus_0_r, rnd_0, Rabs_R0 in L. pose proof (bpow_gt_0 radix2 1024). lra.
  - left. destruct y as [s|s| |s m e H]; try discriminate Fy; try contradiction Ny. cbn in Ny. subst s. destruct x as [s|s| |s m e H]; try discriminate Fx; try contradiction Nx; reflexivity.
  - left. destruct x as [s|s| |s m e H]; try discriminate Fx; try contradiction Nx. cbn in Nx. subst s. destruct y as [s|s| |s m e H]; try contradiction Ny; try reflexivity. cbn in Ny. subst. reflexivity.
Qed.
Lemma sum_skip_ge (l : list b64) : (forall x, In x l -> is_nan x = false -> nonneg x) ->
  forall x, In x l -> is_nan x = false -> le64 x (sum_skip l).
Proof.
  unfold sum_skip. intros H x I N.
  assert (G : forall l acc, nonneg acc -> (forall x, In x l -> is_nan x = false -> nonneg x) ->
    nonneg (fold_left (fun a x => if aisnan x then a else aadd a x) l acc) /\ le64 acc (fold_left (fun a x => if aisnan x then a else aadd a x) l acc)
    /\ forall x, In x l -> is_nan x = false -> le64 x (fold_left (fun a x => if aisnan x then a else aadd a x) l acc)).
  { clear. induction l as [|x l IH]; intros acc Na H; [split; [exact Na|]; split; [apply le64_refl, Na|intros x []]|]. cbn [fold_left].
    change (aisnan x) with (is_nan x). destruct (is_nan x) eqn:E.
    - destruct (IH acc Na (fun y I => H y (or_intror I))) as [I1 [I2 I3]]. split; [exact I1|]. split; [exact I2|]. intros y [<-|I] N; [congruence|exact (I3 y I N)].
    - assert (Nx : nonneg x) by (apply H; [left; reflexivity|exact E]). destruct (IH (aadd acc x) (nonneg_add _ _ Na Nx) (fun y I => H y (or_intror I))) as [I1 [I2 I3]].
      split; [exact I1|]. split; [eapply le64_trans; [apply (le_add_l acc x Na Nx)|exact I2]|]. intros y [<-|I] N; [eapply le64_trans; [apply (le_add_r acc x Na Nx)|exact I2]|exact (I3 y I N)]. }
  assert (Z : nonneg (a0 : b64)) by (cbv; exact Logic.I). exact (proj2 (proj2 (G l a0 Z H)) x I N).
Qed.
(** C133: in double precision, the total density of any species list is not negative and not below the density of any of them, NaN densities
    being skipped (a total beyond the largest double is +infinity). *)
Theorem C133_total_density : forall ions names (r : row b64), usable ions names ->
  (forall s, In s names -> is_nan (r ("n", "", s)%string) = false -> nonneg (r ("n", "", s)%string)) ->
  exists f, number_density ions [PStr (join "+" names)] true = Ok (Total f) /\ nonneg (f r)
    /\ forall s, In s names -> is_nan (r ("n", "", s)%string) = false -> le64 (r ("n", "", s)%string) (f r).
Proof.
  intros ions names r U H. eexists. split.
  { unfold number_density. rewrite chk_join by apply U. unfold bind at 1. rewrite (per_species_ok _ _ (fun s => ion_n s)) by (try apply U; reflexivity). reflexivity. }
  cbv beta. assert (C : cols_at (map (fun s => (s, ion_n s)) (sort_str names)) r = map (fun s => r ("n", "", s)%string) (sort_str names)) by (unfold cols_at; rewrite map_map; reflexivity).
  rewrite C. assert (A : forall x, In x (map (fun s => r ("n", "", s)%string) (sort_str names)) -> is_nan x = false -> nonneg x).
  { intros x I N. apply in_map_iff in I as [s [<- I]]. rewrite sort_In in I. exact (H s I N). }
  split; [exact (nonneg_sum_skip _ A)|]. intros s I N. apply (sum_skip_ge _ A); [|exact N]. apply (in_map (fun s => r ("n", "", s)%string)). rewrite sort_In. exact I.
Qed.
(** A total taken without skipping is NaN as soon as one density is. *)
Theorem C133_total_density_strict : forall ions names (r : row b64) s0, usable ions names -> In s0 names -> is_nan (r ("n", "", s0)%string) = true ->
  exists f, number_density ions [PStr (join "+" names)] false = Ok (Total f) /\ is_nan (f r) = true.
Proof.
  intros ions names r s0 U I N. eexists. split.
  { unfold number_density. rewrite chk_join by apply U. unfold bind at 1. rewrite (per_species_ok _ _ (fun s => ion_n s)) by (try apply U; reflexivity). reflexivity. }
  cbv beta. assert (C : cols_at (map (fun s => (s, ion_n s)) (sort_str names)) r = map (fun s => r ("n", "", s)%string) (sort_str names)) by (unfold cols_at; rewrite map_map; reflexivity).
  rewrite C. assert (A : exists x, In x (map (fun s => r ("n", "", s)%string) (sort_str names)) /\ is_nan x = true).
  { exists (r ("n", "", s0)%string). split; [|exact N]. apply (in_map (fun s => r ("n", "", s)%string)). rewrite sort_In. exact I. }
  unfold sum_strict. generalize (a0 : b64). revert A. generalize (map (fun s => r ("n", "", s)%string) (sort_str names)). clear.
  assert (L : forall x y : b64, is_nan x = true -> is_nan (aadd x y) = true) by (intros x y; destruct x; try discriminate; intros _; reflexivity).
  assert (M : forall x y : b64, is_nan y = true -> is_nan (aadd x y) = true) by (intros x y; destruct y; try discriminate; destruct x; intros _; reflexivity).
  assert (K : forall l (z : b64), is_nan z = true -> is_nan (fold_left aadd l z) = true) by (induction l as [|y l IH]; intros z Hz; [exact Hz|cbn [fold_left]; apply IH, L, Hz]).
  induction l as [|y l IH]; intros [x [I N]] z; [destruct I|]. cbn [fold_left]. destruct I as [-> |I]; [apply K, M, N|apply IH; exists x; auto].
Qed.
Definition dens12 (k : key) : b64 := if key_eqb k ("n", "", "p1")%string then bZ 3 else if key_eqb k ("n", "", "a")%string then B754_nan else bZ 5.
Example C133_ex : exists f, number_density ["a"; "p1"; "p2"]%string [PStr "a+p1+p2"%string] true = Ok (Total f) /\ f dens12 = bZ 8.
Proof. eexists. split; [reflexivity|]. apply B2SF_inj. vm_compute. reflexivity. Qed.

(* ------------------------------------------------------------------ C134: symmetries that rounding keeps *)
Lemma fin_or (x : b64) : is_finite x = true \/ x = B754_nan \/ exists s, x = B754_infinity s.
Proof. destruct x; cbn; eauto. Qed.
Lemma add_comm64 (x y : b64) : aadd x y = aadd y x.
Proof.
  change (Bplus mode_NE x y = Bplus mode_NE y x). destruct (fin_or x) as [Fx|[-> |[s ->]]]; destruct (fin_or y) as [Fy|[-> |[s' ->]]]; try reflexivity;
    try (destruct x; try discriminate; reflexivity); try (destruct y; try discriminate; reflexivity); try (destruct s, s'; reflexivity).
  pose proof (Bplus_correct 53 1024 _ _ mode_NE x y Fx Fy) as H. pose proof (Bplus_correct 53 1024 _ _ mode_NE y x Fy Fx) as G. rewrite (Rplus_comm (B2R y)) in G.
  destruct (Rlt_bool_spec (Rabs (rnd (B2R x + B2R y))) MAXP) as [L|L].
  - destruct H as [H1 [H2 H3]], G as [G1 [G2 G3]]. apply B2R_Bsign_inj; try assumption; [congruence|]. rewrite H3, G3. destruct (Rcompare (B2R x + B2R y) 0); try reflexivity. apply andb_comm.
  - destruct H as [H1 H2], G as [G1 _]. rewrite overflow_NE in H1, G1. rewrite (B2SF_inf _ _ H1), (B2SF_inf _ _ G1). congruence.
Qed.
Lemma mul_comm64 (x y : b64) : amul x y = amul y x.
Proof.
  change (Bmult mode_NE x y = Bmult mode_NE y x). destruct (fin_or x) as [Fx|[-> |[s ->]]]; destruct (fin_or y) as [Fy|[-> |[s' ->]]]; try reflexivity;
    try (destruct x; try discriminate; try destruct s; try destruct s'; try destruct s0; reflexivity); try (destruct y; try discriminate; try destruct s; try destruct s0; reflexivity); try (destruct s, s'; reflexivity).
  pose proof (Bmult_correct 53 1024 _ _ mode_NE x y) as H. pose proof (Bmult_correct 53 1024 _ _ mode_NE y x) as G. rewrite (Rmult_comm (B2R y)) in G.
  destruct (Rlt_bool_spec (Rabs (rnd (B2R x * B2R y))) MAXP) as [L|L].
  - destruct H as [H1 [H2 H3]], G as [G1 [G2 G3]]. rewrite Fx, Fy in H2. rewrite Fx, Fy in G2. apply B2R_Bsign_inj; try assumption; [congruence|].
    assert (Nx : is_nan (Bmult mode_NE x y) = false) by (destruct (Bmult mode_NE x y); try discriminate; reflexivity). assert (Ny : is_nan (Bmult mode_NE y x) = false) by (destruct (Bmult mode_NE y x); try discriminate; reflexivity).
    rewrite (H3 Nx), (G3 Ny). apply xorb_comm.
  - rewrite overflow_NE in H, G. rewrite (B2SF_inf _ _ H), (B2SF_inf _ _ G). rewrite xorb_comm. reflexivity.
Qed.
(** C134: the Coulomb logarithm computed in double precision does not depend on the order of the two species: the same bits, for whatever
    logarithm routine, physical constants and data. *)
Theorem C134_coulomb_logarithm_symmetric : forall (TR : Transc b64) (K : consts b64) ions s0 s1 f, lnlambda K ions s0 s1 = Ok f ->
  exists g, lnlambda K ions s1 s0 = Ok g /\ forall r, g r = f r.
Proof.
  intros TR K ions s0 s1 f H. unfold lnlambda in *. apply bind_ok in H as [[x y] [H2 H]].
  rewrite (two_single_swap _ _ _ _ _ H2). cbn [bind]. cbv beta iota in H |- *.
  apply bind_ok in H as [k0 [Hk0 H]]. apply bind_ok in H as [k1 [Hk1 H]].
  apply bind_ok in H as [t0 [Ht0 H]]. apply bind_ok in H as [t1 [Ht1 H]].
  rewrite Hk0, Hk1. cbn [bind]. rewrite Ht0, Ht1. cbn [bind]. apply (f_equal (fun q => match q with Ok f => f | Err _ => f end)) in H. cbv beta iota in H. rewrite <- H. clear H.
  eexists; split; [reflexivity|]. intros r. cbv zeta.
  rewrite (mul_comm64 (z_of k1) (z_of k0)).
  rewrite (add_comm64 (amu_of K k1) (amu_of K k0)).
  rewrite (add_comm64 (amu_of K k1 * (t0 r * u_T * c_kbeV K))%num).
  rewrite (add_comm64 (ion_n y r * u_n * asq (z_of k1) / (t1 r * u_T * c_kbeV K))%num).
  reflexivity.
Qed.
(** y - x is -(x - y) bit for bit, unless the difference is zero (then both are +0 or -0) or NaN *)
Lemma sub_anti64 (x y : b64) : is_nan (asub x y) = is_nan (asub y x) /\ is_finite (asub x y) = is_finite (asub y x) /\ B2R (asub y x) = - B2R (asub x y)
  /\ (is_finite (asub x y) = false -> asub y x = aopp (asub x y)).
Proof.
  change (asub x y) with (Bminus mode_NE x y). change (asub y x) with (Bminus mode_NE y x). change (aopp (Bminus mode_NE x y)) with (Bopp (Bminus mode_NE x y)).
  destruct (is_finite x) eqn:Fx; [destruct (is_finite y) eqn:Fy|].
  - assert (D : B2R y - B2R x = - (B2R x - B2R y)) by ring.
    destruct (sub_fin x y Fx Fy) as [[L [F E]]|[L [S E]]]; destruct (sub_fin y x Fy Fx) as [[L' [F' E']]|[L' [S' E']]];
      change (asub x y) with (Bminus mode_NE x y) in *; change (asub y x) with (Bminus mode_NE y x) in *; rewrite D, rnd_opp in *; rewrite ?Rabs_Ropp in *; try lra.
    + rewrite F, F', E, E'. split; [|split; [reflexivity|split; [reflexivity|discriminate]]].
      destruct (Bminus mode_NE x y); try discriminate F; destruct (Bminus mode_NE y x); try discriminate F'; reflexivity.
    + rewrite E, E'. cbn [is_nan is_finite B2R Bopp]. split; [reflexivity|]. split; [reflexivity|]. split; [lra|]. intros _. rewrite S. rewrite Bool.negb_involutive. reflexivity.
  - destruct y as [s|s| |s m e H]; try discriminate Fy; destruct x as [s'|s'| |s' m' e' H']; try discriminate Fx; cbn; repeat split; try reflexivity; try lra; try (rewrite Bool.negb_involutive; reflexivity).
  - destruct x as [s'|s'| |s' m' e' H']; try discriminate Fx; destruct y as [s|s| |s m e H]; cbn; try destruct s; try destruct s'; cbn; repeat split; try reflexivity; try lra.
Qed.
(** The drift velocity changes sign, component by component, when the species are exchanged. *)
Theorem C134_drift_antisymmetric : forall (K : consts b64) ions s0 s1 m2q f, dv K ions s0 s1 m2q = Ok f ->
  exists g, dv K ions s1 s0 m2q = Ok g
    /\ forall r i, is_nan (vcomp i (g r)) = is_nan (vcomp i (f r)) /\ is_finite (vcomp i (g r)) = is_finite (vcomp i (f r)) /\ B2R (vcomp i (g r)) = - B2R (vcomp i (f r)).
Proof.
  intros K ions s0 s1 m2q f H. unfold dv in *. rewrite String.eqb_sym. destruct (String.eqb s0 s1); [discriminate|].
  apply bind_ok in H as [v0 [H0 H]]. apply bind_ok in H as [v1 [H1 H]]. rewrite H1. cbn [bind]. rewrite H0. cbn [bind].
  apply (f_equal (fun q => match q with Ok f => f | Err _ => f end)) in H. cbv beta iota in H. rewrite <- H. clear H.
  eexists. split; [reflexivity|]. intros r i. cbv beta. destruct (v0 r) as [[x0 y0] z0], (v1 r) as [[x1 y1] z1].
  destruct i as [|[|i]]; [destruct (sub_anti64 x0 x1) as [A [B [C _]]]|destruct (sub_anti64 y0 y1) as [A [B [C _]]]|destruct (sub_anti64 z0 z1) as [A [B [C _]]]]; (split; [symmetry; exact A|split; [symmetry; exact B|exact C]]).
Qed.

(* ------------------------------------------------------------------ C135: the cosine of the angle between vectors *)
Definition v105 : vec b64 := (bZ 1, bZ 0, bZ 5).
Theorem C135_cosine_bound_refuted : exists v : vec b64, is_finite (cos_theta v v) = true /\ altb (aofZ 1) (cos_theta v v) = true.
Proof. exists v105. split; vm_compute; reflexivity. Qed.
