(** Magnitudes, unit vectors, projections and cosines of core/vector.py in double precision. *)
From Coq Require Import Reals Lra List Bool ZArith Lia Psatz String.
From Flocq Require Import Core.Core Relative Plus_error IEEE754.BinarySingleNaN.
From Verif Require Import Py Num NumB64 Frame Plasma Alfven Float64Thms FloatErrorThms FloatAlfvenThms PlasmaMore.
Import ListNotations.
Open Scope R_scope.

(** component [i] of a vector of doubles as a number, its length and the exact dot product *)
Definition comp (i : nat) (v : vec b64) : R := B2R (vcomp i v).
Definition dot (v w : vec b64) : R := comp 0 v * comp 0 w + comp 1 v * comp 1 w + comp 2 v * comp 2 w.
Definition len (v : vec b64) : R := sqrt (dot v v).
(** components of either sign or zero, of ordinary size, not all zero *)
Definition direction (v : vec b64) : Prop := (forall i, (i < 3)%nat -> comp_ok (vcomp i v)) /\ exists i, (i < 3)%nat /\ comp i v <> 0.

Definition snear (k : nat) (e : Z) (x : b64) (r : R) : Prop :=
  is_finite x = true /\ 0 <= B2R x * r /\ (B2R x = 0 /\ r = 0 \/ near k e (Babs x) (Rabs r)).

Lemma snear_err k e x r : (k <= 1000)%nat -> snear k e x r -> Rabs (B2R x - r) <= INR k * bpow radix2 (-52) * Rabs r.
Proof.
  intros K [F [S [[Z1 Z2]|N]]].
  - rewrite Z1, Z2, Rminus_0_r, Rabs_R0. lra.
  - pose proof (near_within k e _ _ K N) as [_ B]. rewrite B2R_Babs, Rabs_Rabsolu in B. destruct (near_pos _ _ _ _ N) as [P1 P2]. rewrite B2R_Babs in P2.
    assert (E : Rabs (B2R x - r) = Rabs (Rabs (B2R x) - Rabs r)); [|rewrite E; exact B].
    destruct (Rle_dec 0 r) as [H|H].
    + assert (0 <= B2R x) by (rewrite (Rabs_pos_eq r) in P1 by lra; nra). rewrite (Rabs_pos_eq r), (Rabs_pos_eq (B2R x)) by lra. reflexivity.
    + assert (B2R x <= 0) by nra. rewrite (Rabs_left1 r), (Rabs_left1 (B2R x)) by lra. rewrite <- (Rabs_Ropp (B2R x - r)). f_equal. ring.
Qed.
Lemma rnd_abs r : Rabs (rnd r) = rnd (Rabs r).
Proof.
  destruct (Rle_dec 0 r) as [P|P]; [rewrite (Rabs_pos_eq r), Rabs_pos_eq by (try exact P; apply rnd_pos, P); reflexivity|].
  rewrite (Rabs_left r) by lra. rewrite rnd_opp. apply Rabs_left1. rewrite <- rnd_0. apply rnd_le. lra.
Qed.
Lemma rnd_sign r s : 0 <= r * s -> 0 <= rnd r * s.
Proof.
  intro H. destruct (Rtotal_order r 0) as [L|[->|L]].
  - assert (rnd r <= 0) by (rewrite <- rnd_0; apply rnd_le; lra). assert (s <= 0) by nra. nra.
  - rewrite rnd_0. lra.
  - assert (0 <= rnd r) by (apply rnd_pos; lra). assert (0 <= s) by nra. nra.
Qed.
Lemma abs_mul (x y : b64) : is_finite x = true -> is_finite y = true -> is_finite (amul (Babs x) (Babs y)) = true ->
  is_finite (amul x y) = true /\ B2R (amul x y) = rnd (B2R x * B2R y) /\ B2R (amul (Babs x) (Babs y)) = Rabs (B2R (amul x y)).
Proof.
  intros Fx Fy F. assert (Fa : is_finite (Babs x) = true) by (rewrite is_finite_Babs; exact Fx). assert (Fb : is_finite (Babs y) = true) by (rewrite is_finite_Babs; exact Fy).
  destruct (mul_fin (Babs x) (Babs y) Fa Fb) as [[L [_ V]]|[_ E]]; [|rewrite E in F; discriminate F]. rewrite !B2R_Babs, <- Rabs_mult, <- rnd_abs, Rabs_Rabsolu in L. rewrite !B2R_Babs, <- Rabs_mult, <- rnd_abs in V.
  destruct (mul_fin x y Fx Fy) as [[_ [G W]]|[L' _]]; [|lra]. rewrite W. auto.
Qed.
Lemma abs_div (x y : b64) : is_finite x = true -> 0 < B2R y -> is_finite (adiv (Babs x) y) = true ->
  is_finite (adiv x y) = true /\ B2R (adiv x y) = rnd (B2R x / B2R y) /\ B2R (adiv (Babs x) y) = Rabs (B2R (adiv x y)).
Proof.
  intros Fx Py F. assert (Fa : is_finite (Babs x) = true) by (rewrite is_finite_Babs; exact Fx). assert (NZ : B2R y <> 0) by lra.
  assert (E0 : Rabs (B2R x) / B2R y = Rabs (B2R x / B2R y)) by (unfold Rdiv; rewrite Rabs_mult, (Rabs_pos_eq (/ B2R y)) by (apply Rlt_le, Rinv_0_lt_compat, Py); reflexivity).
  destruct (div_fin (Babs x) y Fa NZ) as [[L [_ V]]|[_ E]]; [|rewrite E in F; discriminate F]. rewrite B2R_Babs, E0, <- rnd_abs, Rabs_Rabsolu in L. rewrite B2R_Babs, E0, <- rnd_abs in V.
  destruct (div_fin x y Fx NZ) as [[_ [G W]]|[L' _]]; [|lra]. rewrite W. auto.
Qed.
Lemma near_abs k e x y r : near k e x r -> is_finite y = true -> B2R x = Rabs (B2R y) -> near k e (Babs y) r.
Proof. intros N F V. apply (near_eq _ _ _ _ _ N); [rewrite is_finite_Babs; exact F|rewrite B2R_Babs; auto]. Qed.
Lemma snear_mul k l e f x y r s : snear k e x r -> snear l f y s -> (k + l <= 1000)%nat -> (e + f <= 1000)%Z -> snear (S (k + l)) (e + f) (amul x y) (r * s).
Proof.
  intros [Fx [Sx Hx]] [Fy [Sy Hy]] K E.
  assert (Z : B2R x = 0 \/ B2R y = 0 -> r * s = 0 -> snear (S (k + l)) (e + f) (amul x y) (r * s)).
  { intros Z Z'. destruct (mul_zero x y Fx Fy Z) as [F V]. split; [exact F|]. split; [rewrite V; lra|]. left. auto. }
  destruct Hx as [[Z1 Z2]|Nx]; [apply Z; [auto|rewrite Z2; ring]|]. destruct Hy as [[Z1 Z2]|Ny]; [apply Z; [auto|rewrite Z2; ring]|].
  pose proof (near_mul _ _ _ _ _ _ _ _ Nx Ny K E) as N. destruct (abs_mul x y Fx Fy (proj1 N)) as [F [V A]]. rewrite <- Rabs_mult in N.
  split; [exact F|]. split; [rewrite V; apply rnd_sign; nra|]. right. exact (near_abs _ _ _ _ _ N F A).
Qed.
Lemma snear_div k l e f x y r s : snear k e x r -> near l f y s -> (k + l <= 1000)%nat -> (e + f <= 1000)%Z -> (0 <= e + f)%Z -> snear (S (k + l)) (e + f) (adiv x y) (r / s).
Proof.
  intros [Fx [Sx Hx]] Ny K E E0. destruct (near_pos _ _ _ _ Ny) as [Ps Py]. pose proof (Rinv_0_lt_compat _ Ps) as Is. pose proof (Rinv_0_lt_compat _ Py) as Iy.
  destruct Hx as [[Z1 Z2]|Nx].
  - destruct (div_fin x y Fx ltac:(lra)) as [[_ [F V]]|[L _]].
    + assert (V0 : B2R (adiv x y) = 0) by (rewrite V, Z1; unfold Rdiv; rewrite Rmult_0_l; apply rnd_0). split; [exact F|]. split; [rewrite V0; lra|]. left. split; [exact V0|]. rewrite Z2. unfold Rdiv. ring.
    + exfalso. unfold Rdiv in L. rewrite Z1, Rmult_0_l, rnd_0, Rabs_R0 in L. pose proof (bpow_gt_0 radix2 1024). lra.
  - pose proof (near_div _ _ _ _ _ _ _ _ Nx Ny K E) as N. destruct (abs_div x y Fx Py (proj1 N)) as [F [V A]].
    assert (E1 : Rabs r / s = Rabs (r / s)) by (unfold Rdiv; rewrite Rabs_mult, (Rabs_pos_eq (/ s)) by lra; reflexivity). rewrite E1 in N.
    split; [exact F|]. split; [|right; exact (near_abs _ _ _ _ _ N F A)]. rewrite V. apply rnd_sign. unfold Rdiv. assert (0 < / B2R y * / s) by (apply Rmult_lt_0_compat; assumption). nra.
Qed.
Lemma snear_comp x : comp_ok x -> snear 0 50 x (B2R x).
Proof.
  intros [F H]. split; [exact F|]. split; [apply Rle_0_sqr|]. destruct H as [Z|S]; [left; auto|right]. split; [rewrite is_finite_Babs; exact F|]. split; [exact S|]. rewrite B2R_Babs. cbn. lra.
Qed.

(* ------------------------------------------------------------------ the magnitude *)
Definition as_row (v : vec b64) : row b64 := fun k =>
  if key_eqb k ("b", "x", "")%string then vcomp 0 v else if key_eqb k ("b", "y", "")%string then vcomp 1 v else vcomp 2 v.
Lemma dot_self_pos v : direction v -> 0 < dot v v.
Proof.
  intros [_ [i [L N]]]. unfold dot. assert (forall a, 0 <= a * a) by (intro; nra). destruct i as [|[|[|i]]]; [| | |lia]; pose proof (H (comp 0 v)); pose proof (H (comp 1 v)); pose proof (H (comp 2 v)).
  - assert (0 < comp 0 v * comp 0 v) by (apply Rsqr_pos_lt, N). lra.
  - assert (0 < comp 1 v * comp 1 v) by (apply Rsqr_pos_lt, N). lra.
  - assert (0 < comp 2 v * comp 2 v) by (apply Rsqr_pos_lt, N). lra.
Qed.
Lemma len_pos v : direction v -> 0 < len v. Proof. intro D. apply sqrt_lt_R0, dot_self_pos, D. Qed.
Lemma mag_near v : direction v -> near 3 52 (vmag v) (len v).
Proof.
  intros [C [i [L N]]]. assert (FO : field_ok (as_row v)).
  { repeat split; try (apply (C 0%nat); lia); try (apply (C 1%nat); lia); try (apply (C 2%nat); lia). destruct i as [|[|[|i]]]; [left|right; left|right; right|lia]; exact N. }
  pose proof (bmag_rel _ FO) as [s [E R']]. destruct v as [[x y] z]. change (bmag (as_row (x, y, z))) with (vmag (x, y, z)) in R'.
  replace (len (x, y, z)) with s; [exact R'|]. change (bmag (exact_row (as_row (x, y, z)))) with (asqrt (sum_strict [asq (exact x); asq (exact y); asq (exact z)])) in E.
  rewrite (exact_fin x (proj1 (C 0%nat ltac:(lia)))), (exact_fin y (proj1 (C 1%nat ltac:(lia)))), (exact_fin z (proj1 (C 2%nat ltac:(lia)))), !fin_sq in E.
  change [Fin (B2R x * B2R x); Fin (B2R y * B2R y); Fin (B2R z * B2R z)] with (map Fin [B2R x * B2R x; B2R y * B2R y; B2R z * B2R z]) in E. rewrite sum_strict_fin in E.
  assert (Ed : Rsum [B2R x * B2R x; B2R y * B2R y; B2R z * B2R z] = dot (x, y, z) (x, y, z)) by (unfold Rsum, dot, comp; cbn; ring). rewrite Ed in E.
  rewrite fin_sqrt in E by (apply Rlt_le, dot_self_pos; split; [exact C|exists i; auto]). injection E as E. symmetry. exact E.
Qed.

(** squaring a component and taking the root never falls below the component *)
Lemma sqrt_square_ge (x : R) : generic_format radix2 fexp64 x -> bpow radix2 (-50) <= x -> x <= rnd (sqrt (rnd (x * x))).
Proof.
  intros G L. pose proof (bpow_gt_0 radix2 (-50)) as P0. assert (Px : 0 < x) by lra. set (e := mag radix2 x : Z).
  assert (B : bpow radix2 (e - 1) <= x < bpow radix2 e).
  { unfold e. split; [pose proof (bpow_mag_le radix2 x ltac:(lra)) as H|pose proof (bpow_mag_gt radix2 x) as H]; rewrite Rabs_pos_eq in H by lra; exact H. }
  assert (E50 : (-49 <= e)%Z) by (unfold e; apply mag_ge_bpow; rewrite Rabs_pos_eq by lra; exact L).
  destruct (Rle_or_lt x (rnd (sqrt (rnd (x * x))))) as [H|H]; [exact H|exfalso].
  set (s := sqrt (rnd (x * x))) in *. assert (S0 : 0 <= s) by apply sqrt_pos. assert (R0 : 0 <= rnd (x * x)) by (apply rnd_pos; nra). assert (SS : s * s = rnd (x * x)) by (unfold s; apply sqrt_sqrt, R0).
  destruct (Req_dec x (bpow radix2 (e - 1))) as [Q|Q].
  - assert (V : rnd (x * x) = x * x). { apply round_generic; [apply _|]. rewrite Q, <- bpow_plus. apply generic_format_bpow. unfold SpecFloat.fexp, SpecFloat.emin. lia. }
    assert (s = x) by (unfold s; rewrite V; apply sqrt_square; lra). rewrite H0 in H. rewrite (round_generic radix2 fexp64 _ x G) in H. lra.
  - set (h := bpow radix2 (e - 54)). assert (Ph : 0 < h) by apply bpow_gt_0.
    assert (EP : bpow radix2 (e - 1) = bpow radix2 53 * h) by (unfold h; rewrite <- bpow_plus; f_equal; lia).
    assert (Ue : ulp radix2 fexp64 x = 2 * h).
    { rewrite ulp_neq_0 by lra. unfold cexp. fold e. change 2 with (bpow radix2 1). unfold h. rewrite <- bpow_plus. f_equal. unfold SpecFloat.fexp, SpecFloat.emin. lia. }
    assert (Gx : bpow radix2 (e - 1) + 2 * h <= x).
    { assert (F0 : generic_format radix2 fexp64 (bpow radix2 (e - 1))) by (apply generic_format_bpow; unfold SpecFloat.fexp, SpecFloat.emin; lia).
      assert (M0 : (mag radix2 (bpow radix2 (e - 1)) : Z) = e) by (rewrite mag_bpow; lia).
      pose proof (succ_le_lt radix2 fexp64 (bpow radix2 (e - 1)) x F0 G ltac:(lra)) as S1. rewrite succ_eq_pos in S1 by apply bpow_ge_0.
      replace (ulp radix2 fexp64 (bpow radix2 (e - 1))) with (2 * h) in S1; [exact S1|]. rewrite <- Ue, !ulp_neq_0 by (try lra; apply Rgt_not_eq, bpow_gt_0). unfold cexp. rewrite M0. reflexivity. }
    assert (Sm : s <= x - h).
    { destruct (Rle_or_lt s (x - h)) as [T|T]; [exact T|exfalso]. assert (x <= rnd s); [|lra].
      apply round_N_ge_midp; [apply _|exact G|]. rewrite pred_eq_pos by lra. unfold pred_pos. fold e. rewrite Req_bool_false by exact Q. rewrite Ue. lra. }
    assert (U2 : ulp radix2 fexp64 (x * x) <= bpow radix2 (2 * e - 53)).
    { assert (NZ : x * x <> 0) by nra. rewrite ulp_neq_0 by exact NZ. apply bpow_le. unfold cexp. assert (M : (mag radix2 (x * x) <= 2 * e)%Z).
      { apply mag_le_bpow; [exact NZ|]. rewrite Rabs_pos_eq by nra. replace (2 * e)%Z with (e + e)%Z by lia. rewrite bpow_plus. pose proof (bpow_gt_0 radix2 e). nra. }
      unfold SpecFloat.fexp, SpecFloat.emin. lia. }
    pose proof (error_le_half_ulp radix2 fexp64 (fun z => negb (Z.even z)) (x * x)) as ER. fold (rnd (x * x)) in ER. apply Rabs_le_inv in ER.
    assert (E2 : bpow radix2 (2 * e - 53) = 2 * (bpow radix2 54 * h * h)).
    { change 2 with (bpow radix2 1). unfold h. rewrite <- !bpow_plus. f_equal. lia. }
    assert (Q2 : s * s <= (x - h) * (x - h)) by (apply Rmult_le_compat; lra).
    assert (E54 : bpow radix2 54 = 2 * bpow radix2 53) by (change 2 with (bpow radix2 1); rewrite <- bpow_plus; reflexivity).
    rewrite EP in Gx. set (p := bpow radix2 53) in *. assert (2 * p * h + 3 * h <= 2 * x - h) by lra. assert ((2 * p * h + 3 * h) * h <= (2 * x - h) * h) by (apply Rmult_le_compat_r; lra). rewrite E54 in E2.
    assert (X1 : (x - h) * (x - h) = x * x - (2 * x - h) * h) by ring. assert (X2 : (2 * p * h + 3 * h) * h = 2 * p * h * h + 3 * (h * h)) by ring. assert (0 < h * h) by (apply Rmult_lt_0_compat; exact Ph).
    rewrite X1 in Q2. rewrite X2 in H1. rewrite SS in Q2. rewrite E2 in U2. clear - ER U2 Q2 H1 H2. cbn [round_mode] in Q2. lra.
Qed.

Lemma sqrt_val (x : b64) : B2R (asqrt x) = rnd (sqrt (B2R x)).
Proof. change (asqrt x) with (Bsqrt mode_NE x). destruct (Bsqrt_correct 53 1024 _ _ mode_NE x) as [V _]. exact V. Qed.
Lemma comp_sq_val x : comp_ok x -> nonneg (asq x) /\ is_finite (asq x) = true /\ B2R (asq x) = rnd (B2R x * B2R x).
Proof.
  intro C. destruct (snear_mul _ _ _ _ _ _ _ _ (snear_comp x C) (snear_comp x C) ltac:(lia) ltac:(lia)) as [F _]. change (amul x x) with (asq x) in F.
  split; [apply nonneg_sq; destruct x; try reflexivity; destruct C as [C _]; discriminate C|]. split; [exact F|]. unfold asq in *. destruct (mul_fin x x (proj1 C) (proj1 C)) as [[_ [_ V]]|[_ E]]; [exact V|rewrite E in F; discriminate F].
Qed.
Lemma mag_ge v i : direction v -> (i < 3)%nat -> Rabs (comp i v) <= B2R (vmag v).
Proof.
  intros D Hi. pose proof (mag_near v D) as [Fm _]. destruct D as [C _]. destruct v as [[x y] z].
  destruct (comp_sq_val x (C 0%nat ltac:(lia))) as [Nx [Fx Vx]]. destruct (comp_sq_val y (C 1%nat ltac:(lia))) as [Ny [Fy Vy]]. destruct (comp_sq_val z (C 2%nat ltac:(lia))) as [Nz [Fz Vz]].
  set (q := sum_strict [asq x; asq y; asq z]). assert (N0 : nonneg (a0 : b64)) by exact I. change (vmag (x, y, z)) with (asqrt q) in *.
  assert (Q : forall t, In t [asq x; asq y; asq z] -> le64 t q).
  { assert (N1 := nonneg_add _ _ N0 Nx). assert (N2 := nonneg_add _ _ N1 Ny). intros t [<-|[<-|[<-|[]]]]; unfold q, sum_strict; cbn [fold_left].
    - apply le64_trans with (2 := le_add_l _ _ N2 Nz). apply le64_trans with (2 := le_add_l _ _ N1 Ny). exact (le_add_r _ _ N0 Nx).
    - apply le64_trans with (2 := le_add_l _ _ N2 Nz). exact (le_add_r _ _ N1 Ny).
    - exact (le_add_r _ _ N2 Nz). }
  assert (W : forall t, comp_ok t -> In (asq t) [asq x; asq y; asq z] -> Rabs (B2R t) <= B2R (asqrt q)).
  { intros t Ct It. destruct Ct as [Ft [Zt|St]]; [rewrite Zt, Rabs_R0; rewrite sqrt_val; apply rnd_pos, sqrt_pos|].
    destruct (comp_sq_val t (conj Ft (or_intror St))) as [_ [_ Vt]]. specialize (Q _ It). destruct Q as [E|[_ [_ L]]]; [rewrite E in Fm; discriminate Fm|]. rewrite Vt in L. rewrite sqrt_val.
    apply Rle_trans with (rnd (sqrt (rnd (Rabs (B2R t) * Rabs (B2R t))))); [apply sqrt_square_ge; [apply generic_format_abs, (generic_format_B2R 53 1024)|apply St]|].
    rewrite <- Rabs_mult, (Rabs_pos_eq (B2R t * B2R t)) by nra. apply rnd_le, sqrt_le_1_alt, L. }
  destruct i as [|[|[|i]]]; [| | |lia]; apply W; cbn; auto; apply (C 0%nat ltac:(lia)) || apply (C 1%nat ltac:(lia)) || apply (C 2%nat ltac:(lia)).
Qed.

Theorem C237_magnitude : forall v, direction v ->
  is_finite (vmag v) = true /\ Rabs (B2R (vmag v) - len v) <= 3 * bpow radix2 (-52) * len v /\ forall i, (i < 3)%nat -> Rabs (comp i v) <= B2R (vmag v).
Proof.
  intros v D. pose proof (mag_near v D) as N. destruct (near_within 3 52 _ _ ltac:(lia) N) as [F B]. split; [exact F|]. split; [|intros i Hi; exact (mag_ge v i D Hi)].
  pose proof (len_pos v D) as P. rewrite (Rabs_pos_eq (len v)) in B by lra. change (INR 3) with (1 + 1 + 1) in B. lra.
Qed.

(* ------------------------------------------------------------------ unit vectors *)
Lemma unit_snear v i : direction v -> (i < 3)%nat -> snear 4 102 (vcomp i (unit_vector v)) (comp i v / len v).
Proof.
  intros D Hi. pose proof (snear_div 0 3 50 52 _ _ _ _ (snear_comp _ (proj1 D i Hi)) (mag_near v D) ltac:(lia) ltac:(lia) ltac:(lia)) as N.
  replace (vcomp i (unit_vector v)) with (adiv (vcomp i v) (vmag v)); [exact N|]. unfold unit_vector, vbuild. destruct i as [|[|[|i]]]; [reflexivity..|lia].
Qed.
Lemma unit_val v i : direction v -> (i < 3)%nat -> comp i (unit_vector v) = rnd (comp i v / B2R (vmag v)).
Proof.
  intros D Hi. destruct (unit_snear v i D Hi) as [F _]. assert (E : vcomp i (unit_vector v) = adiv (vcomp i v) (vmag v)) by (unfold unit_vector, vbuild; destruct i as [|[|[|i]]]; [reflexivity..|lia]).
  unfold comp. rewrite E in *. destruct (div_fin _ (vmag v) (proj1 (proj1 D i Hi)) (Rgt_not_eq _ _ (proj2 (near_pos _ _ _ _ (mag_near v D))))) as [[_ [_ V]]|[_ E']]; [exact V|rewrite E' in F; discriminate F].
Qed.
Theorem C237_unit_vector : forall v i, direction v -> (i < 3)%nat ->
  is_finite (vcomp i (unit_vector v)) = true /\ Rabs (comp i (unit_vector v) - comp i v / len v) <= 4 * bpow radix2 (-52) * Rabs (comp i v / len v)
  /\ Rabs (comp i (unit_vector v)) <= 1.
Proof.
  intros v i D Hi. pose proof (unit_snear v i D Hi) as N. split; [apply N|]. split.
  - pose proof (snear_err 4 102 _ _ ltac:(lia) N) as B. change (INR 4) with (1 + 1 + 1 + 1) in B. unfold comp in *. lra.
  - rewrite (unit_val v i D Hi). pose proof (mag_ge v i D Hi) as M. destruct (near_pos _ _ _ _ (mag_near v D)) as [_ P]. apply Rabs_le. apply rnd_unit. apply Rabs_le_inv.
    unfold Rdiv. rewrite Rabs_mult, (Rabs_pos_eq (/ _)) by (apply Rlt_le, Rinv_0_lt_compat, P). apply (Rmult_le_reg_r (B2R (vmag v))); [exact P|]. rewrite Rmult_assoc, Rinv_l by lra. lra.
Qed.

(* ------------------------------------------------------------------ sums of three signed terms *)
Lemma add_err (x y : b64) : is_finite x = true -> is_finite y = true -> Rabs (B2R x + B2R y) <= bpow radix2 1000 ->
  is_finite (aadd x y) = true /\ Rabs (B2R (aadd x y) - (B2R x + B2R y)) <= bpow radix2 (-53) * Rabs (B2R x + B2R y).
Proof.
  intros Fx Fy L. destruct (FLT_plus_error_N_ex radix2 (-1074) 53 (fun z => negb (Z.even z)) (B2R x) (B2R y) (generic_format_B2R 53 1024 x) (generic_format_B2R 53 1024 y)) as [eps [He Ve]].
  change (round radix2 (FLT_exp (-1074) 53) ZnearestE (B2R x + B2R y)) with (rnd (B2R x + B2R y)) in Ve.
  assert (U : bpow radix2 (-53) = / 9007199254740992) by reflexivity.
  assert (He' : Rabs eps <= bpow radix2 (-53)).
  { rewrite U. apply Rle_trans with (1 := He). assert (UR : u_ro radix2 53 = / 9007199254740992) by (unfold u_ro; change (bpow radix2 (- (53) + 1)) with (/ 4503599627370496); lra). rewrite UR. apply Rmult_le_reg_r with (1 + / 9007199254740992); [lra|]. unfold Rdiv. rewrite Rmult_assoc, Rinv_l by lra. lra. }
  destruct (add_fin x y Fx Fy) as [[_ [F V]]|[B _]].
  - split; [exact F|]. rewrite V, Ve. replace ((B2R x + B2R y) * (1 + eps) - (B2R x + B2R y)) with (eps * (B2R x + B2R y)) by ring. rewrite Rabs_mult. apply Rmult_le_compat_r; [apply Rabs_pos|exact He'].
  - exfalso. assert (Rabs (rnd (B2R x + B2R y)) <= bpow radix2 1000) by (apply abs_round_le_generic; [apply _|apply _|apply generic_format_bpow; unfold SpecFloat.fexp, SpecFloat.emin; lia|exact L]).
    pose proof (bpow_lt radix2 1000 1024 ltac:(lia)). lra.
Qed.
Lemma sum3_err k e (p0 p1 p2 : b64) r0 r1 r2 M : (k <= 1000)%nat -> snear k e p0 r0 -> snear k e p1 r1 -> snear k e p2 r2 -> Rabs r0 + Rabs r1 + Rabs r2 <= M -> M <= bpow radix2 900 ->
  is_finite (sum_skip [p0; p1; p2]) = true /\ Rabs (B2R (sum_skip [p0; p1; p2]) - (r0 + r1 + r2)) <= INR (k + 2) * bpow radix2 (-52) * M.
Proof.
  intros K N0 N1 N2 HM LM. pose proof (snear_err k e _ _ K N0) as E0. pose proof (snear_err k e _ _ K N1) as E1. pose proof (snear_err k e _ _ K N2) as E2.
  assert (NN : forall p r, snear k e p r -> aisnan p = false) by (intros p r [F _]; destruct p; try discriminate F; reflexivity).
  unfold sum_skip. cbn [fold_left]. rewrite (NN _ _ N0), (NN _ _ N1), (NN _ _ N2). destruct N0 as [F0 _]. destruct N1 as [F1 _]. destruct N2 as [F2 _].
  destruct (add_zero_l a0 p0 (proj1 zero64) (proj2 zero64) F0) as [Fs Vs]. set (s0 := aadd a0 p0) in *.
  pose proof (ku_small k K) as KS. pose proof (pos_INR k) as K0.
  assert (D : bpow radix2 (-52) = 2 * bpow radix2 (-53)) by (change 2 with (bpow radix2 1); rewrite <- bpow_plus; reflexivity).
  pose proof u_small as [U1 U2]. set (u := bpow radix2 (-53)) in *. rewrite D in *. rewrite plus_INR. change (INR 2) with 2. set (d := INR k * (2 * u)) in *.
  assert (Dd : 0 <= d <= / 2) by (unfold d; split; [nra|lra]). replace ((INR k + 2) * (2 * u) * M) with (d * M + 4 * u * M) by (unfold d; ring). clearbody d.
  pose proof (Rabs_pos r0) as A0. pose proof (Rabs_pos r1) as A1. pose proof (Rabs_pos r2) as A2.
  assert (B0 : Rabs (B2R p0) <= (1 + d) * Rabs r0) by (replace (B2R p0) with ((B2R p0 - r0) + r0) by ring; apply Rle_trans with (1 := Rabs_triang _ _); lra).
  assert (B1 : Rabs (B2R p1) <= (1 + d) * Rabs r1) by (replace (B2R p1) with ((B2R p1 - r1) + r1) by ring; apply Rle_trans with (1 := Rabs_triang _ _); lra).
  assert (B2 : Rabs (B2R p2) <= (1 + d) * Rabs r2) by (replace (B2R p2) with ((B2R p2 - r2) + r2) by ring; apply Rle_trans with (1 := Rabs_triang _ _); lra).
  assert (BM : bpow radix2 900 * 4 <= bpow radix2 1000) by (change 4 with (bpow radix2 2); rewrite <- bpow_plus; apply bpow_le; lia).
  set (m1 := Rabs r0 + Rabs r1) in *. assert (M1 : Rabs (B2R s0 + B2R p1) <= (1 + d) * m1) by (rewrite Vs; apply Rle_trans with (1 := Rabs_triang _ _); unfold m1; lra).
  assert (M0 : 0 <= m1) by (unfold m1; lra). assert (Q1 : (1 + d) * m1 <= 2 * M) by nra.
  destruct (add_err s0 p1 Fs F1 ltac:(lra)) as [Fa Ea]. set (s1 := aadd s0 p1) in *. fold u in Ea.
  assert (Ua : u * Rabs (B2R s0 + B2R p1) <= u * ((1 + d) * m1)) by (apply Rmult_le_compat_l; lra).
  assert (Us : u * ((1 + d) * m1) <= (1 + d) * m1) by (assert (0 <= (1 + d) * m1) by nra; nra).
  assert (M2 : Rabs (B2R s1 + B2R p2) <= (1 + u) * ((1 + d) * m1) + (1 + d) * Rabs r2).
  { replace (B2R s1 + B2R p2) with ((B2R s1 - (B2R s0 + B2R p1)) + (B2R s0 + B2R p1) + B2R p2) by ring. apply Rle_trans with (1 := Rabs_triang _ _). pose proof (Rabs_triang (B2R s1 - (B2R s0 + B2R p1)) (B2R s0 + B2R p1)). lra. }
  assert (MM : m1 + Rabs r2 <= M) by exact HM. assert (M3 : Rabs (B2R s1 + B2R p2) <= (1 + u) * ((1 + d) * M)).
  { apply Rle_trans with (1 := M2). assert ((1 + d) * (m1 + Rabs r2) <= (1 + d) * M) by (apply Rmult_le_compat_l; lra). assert ((1 + u) * ((1 + d) * (m1 + Rabs r2)) <= (1 + u) * ((1 + d) * M)) by (apply Rmult_le_compat_l; lra). assert (0 <= u * ((1 + d) * Rabs r2)) by (apply Rmult_le_pos; [lra|nra]). lra. }
  assert (PM : 0 <= M) by lra. assert (DM : 0 <= d * M <= / 2 * M) by (split; [apply Rmult_le_pos; lra|apply Rmult_le_compat_r; lra]).
  assert (UM : 0 <= u * M <= / 2 * M) by (split; [apply Rmult_le_pos; lra|apply Rmult_le_compat_r; lra]). assert (UDM : 0 <= u * (d * M) <= / 2 * (u * M)) by nra.
  destruct (add_err s1 p2 Fa F2 ltac:(lra)) as [Fb Eb]. set (s2 := aadd s1 p2) in *. fold u in Eb. split; [exact Fb|].
  assert (Ub : u * Rabs (B2R s1 + B2R p2) <= u * ((1 + u) * ((1 + d) * M))) by (apply Rmult_le_compat_l; lra).
  replace (B2R s2 - (r0 + r1 + r2)) with ((B2R s2 - (B2R s1 + B2R p2)) + ((B2R s1 - (B2R s0 + B2R p1)) + ((B2R p0 - r0) + ((B2R p1 - r1) + (B2R p2 - r2))))) by (rewrite Vs; ring).
  apply Rle_trans with (1 := Rabs_triang _ _). eapply Rle_trans; [apply Rplus_le_compat_l, Rabs_triang|]. eapply Rle_trans; [apply Rplus_le_compat_l, Rplus_le_compat_l, Rabs_triang|]. eapply Rle_trans; [apply Rplus_le_compat_l, Rplus_le_compat_l, Rplus_le_compat_l, Rabs_triang|].
  assert (T1 : u * ((1 + d) * m1) <= u * ((1 + d) * M)) by (apply Rmult_le_compat_l; [lra|]; apply Rmult_le_compat_l; lra).
  assert (T2 : d * (m1 + Rabs r2) <= d * M) by (apply Rmult_le_compat_l; lra). unfold m1 in T2.
  assert (UUM : 0 <= u * (u * M) <= / 8 * (u * M)) by nra. assert (UUDM : 0 <= u * (u * (d * M)) <= / 8 * (u * M)) by nra. lra.
Qed.

(** Cauchy and Schwarz *)
Lemma cauchy a b c x y z : (Rabs (a * x) + Rabs (b * y) + Rabs (c * z)) <= sqrt (a * a + b * b + c * c) * sqrt (x * x + y * y + z * z).
Proof.
  rewrite <- sqrt_mult by nra. rewrite !Rabs_mult. rewrite <- (sqrt_square (Rabs a * Rabs x + Rabs b * Rabs y + Rabs c * Rabs z)).
  - apply sqrt_le_1_alt. assert (S : forall t, t * t = Rabs t * Rabs t) by (intro t; rewrite <- Rabs_mult, Rabs_pos_eq; [reflexivity|apply Rle_0_sqr]). rewrite (S a), (S b), (S c), (S x), (S y), (S z).
    set (A := Rabs a). set (B := Rabs b). set (C := Rabs c). set (X := Rabs x). set (Y := Rabs y). set (Z := Rabs z).
    clearbody A B C X Y Z. pose proof (Rle_0_sqr (A * Y - B * X)) as H1. pose proof (Rle_0_sqr (A * Z - C * X)) as H2. pose proof (Rle_0_sqr (B * Z - C * Y)) as H3. unfold Rsqr in *.
    apply (Rplus_le_reg_r (- ((A * X + B * Y + C * Z) * (A * X + B * Y + C * Z)))). ring_simplify. ring_simplify in H1. ring_simplify in H2. ring_simplify in H3. lra.
  - pose proof (Rabs_pos a). pose proof (Rabs_pos b). pose proof (Rabs_pos c). pose proof (Rabs_pos x). pose proof (Rabs_pos y). pose proof (Rabs_pos z). nra.
Qed.
Lemma dot_abs v w : Rabs (comp 0 v * comp 0 w) + Rabs (comp 1 v * comp 1 w) + Rabs (comp 2 v * comp 2 w) <= len v * len w.
Proof. unfold len, dot. apply cauchy. Qed.
Lemma dot_len v w : Rabs (dot v w) <= len v * len w.
Proof.
  apply Rle_trans with (2 := dot_abs v w). unfold dot. apply Rle_trans with (1 := Rabs_triang _ _). pose proof (Rabs_triang (comp 0 v * comp 0 w) (comp 1 v * comp 1 w)). lra.
Qed.

Lemma len_bound v : direction v -> len v <= bpow radix2 52.
Proof. intro D. exact (proj2 (near_range _ _ _ _ (mag_near v D))). Qed.
Theorem C237_cosine : forall v w, direction v -> direction w ->
  is_finite (cos_theta v w) = true /\ Rabs (B2R (cos_theta v w) - dot v w / (len v * len w)) <= 11 * bpow radix2 (-52).
Proof.
  intros v w Dv Dw. pose proof (len_pos v Dv) as Pv. pose proof (len_pos w Dw) as Pw.
  assert (T : forall i, (i < 3)%nat -> snear 9 204 (amul (vcomp i (unit_vector v)) (vcomp i (unit_vector w))) (comp i v / len v * (comp i w / len w))).
  { intros i Hi. exact (snear_mul 4 4 102 102 _ _ _ _ (unit_snear v i Dv Hi) (unit_snear w i Dw Hi) ltac:(lia) ltac:(lia)). }
  assert (HM : Rabs (comp 0 v / len v * (comp 0 w / len w)) + Rabs (comp 1 v / len v * (comp 1 w / len w)) + Rabs (comp 2 v / len v * (comp 2 w / len w)) <= 1).
  { assert (Q : forall i, Rabs (comp i v / len v * (comp i w / len w)) = Rabs (comp i v * comp i w) * / (len v * len w)).
    { intro i. rewrite <- (Rabs_pos_eq (/ (len v * len w))) by (apply Rlt_le, Rinv_0_lt_compat, Rmult_lt_0_compat; assumption). rewrite <- Rabs_mult. f_equal. field. lra. }
    rewrite !Q, <- !Rmult_plus_distr_r. assert (P : 0 < len v * len w) by (apply Rmult_lt_0_compat; assumption). apply (Rmult_le_reg_r (len v * len w)); [exact P|]. rewrite Rmult_assoc, Rinv_l by lra. pose proof (dot_abs v w). lra. }
  destruct (sum3_err 9 204 _ _ _ _ _ _ 1 ltac:(lia) (T 0%nat ltac:(lia)) (T 1%nat ltac:(lia)) (T 2%nat ltac:(lia)) HM) as [F E].
  { change 1 with (bpow radix2 0). apply bpow_le. lia. }
  split; [exact F|]. replace (dot v w / (len v * len w)) with (comp 0 v / len v * (comp 0 w / len w) + comp 1 v / len v * (comp 1 w / len w) + comp 2 v / len v * (comp 2 w / len w)) by (unfold dot; field; lra).
  replace (INR (9 + 2)) with 11 in E by (cbn; lra). rewrite Rmult_1_r in E. exact E.
Qed.
Theorem C237_cosine_bound : forall v w, direction v -> direction w -> Rabs (B2R (cos_theta v w)) <= 1 + 11 * bpow radix2 (-52).
Proof.
  intros v w Dv Dw. destruct (C237_cosine v w Dv Dw) as [_ E]. pose proof (len_pos v Dv) as Pv. pose proof (len_pos w Dw) as Pw. assert (P : 0 < len v * len w) by (apply Rmult_lt_0_compat; assumption).
  assert (B : Rabs (dot v w / (len v * len w)) <= 1).
  { unfold Rdiv. rewrite Rabs_mult, (Rabs_pos_eq (/ _)) by (apply Rlt_le, Rinv_0_lt_compat, P). apply (Rmult_le_reg_r (len v * len w)); [exact P|]. rewrite Rmult_assoc, Rinv_l by lra. pose proof (dot_len v w). lra. }
  replace (B2R (cos_theta v w)) with ((B2R (cos_theta v w) - dot v w / (len v * len w)) + dot v w / (len v * len w)) by ring. apply Rle_trans with (1 := Rabs_triang _ _). lra.
Qed.
Theorem C237_projection : forall v w, direction v -> direction w ->
  is_finite (project_par v w) = true /\ Rabs (B2R (project_par v w) - dot v w / len w) <= 7 * bpow radix2 (-52) * len v.
Proof.
  intros v w Dv Dw. pose proof (len_pos v Dv) as Pv. pose proof (len_pos w Dw) as Pw.
  assert (T : forall i, (i < 3)%nat -> snear 5 152 (amul (vcomp i v) (vcomp i (unit_vector w))) (comp i v * (comp i w / len w))).
  { intros i Hi. exact (snear_mul 0 4 50 102 _ _ _ _ (snear_comp _ (proj1 Dv i Hi)) (unit_snear w i Dw Hi) ltac:(lia) ltac:(lia)). }
  assert (HM : Rabs (comp 0 v * (comp 0 w / len w)) + Rabs (comp 1 v * (comp 1 w / len w)) + Rabs (comp 2 v * (comp 2 w / len w)) <= len v).
  { assert (Q : forall i, Rabs (comp i v * (comp i w / len w)) = Rabs (comp i v * comp i w) * / len w).
    { intro i. rewrite <- (Rabs_pos_eq (/ len w)) by (apply Rlt_le, Rinv_0_lt_compat; assumption). rewrite <- Rabs_mult. f_equal. field. lra. }
    rewrite !Q, <- !Rmult_plus_distr_r. apply (Rmult_le_reg_r (len w)); [exact Pw|]. rewrite Rmult_assoc, Rinv_l by lra. pose proof (dot_abs v w). lra. }
  destruct (sum3_err 5 152 _ _ _ _ _ _ (len v) ltac:(lia) (T 0%nat ltac:(lia)) (T 1%nat ltac:(lia)) (T 2%nat ltac:(lia)) HM) as [F E].
  { apply Rle_trans with (1 := len_bound v Dv). apply bpow_le. lia. }
  split; [exact F|]. replace (dot v w / len w) with (comp 0 v * (comp 0 w / len w) + comp 1 v * (comp 1 w / len w) + comp 2 v * (comp 2 w / len w)) by (unfold dot; field; lra).
  replace (INR (5 + 2)) with 7 in E by (cbn; lra). exact E.
Qed.

(** the magnitude of a unit vector *)
Lemma unit_term v i : direction v -> (i < 3)%nat -> term 9 204 (asq (vcomp i (unit_vector v))) (Fin (comp i v / len v * (comp i v / len v))).
Proof.
  intros D Hi. pose proof (unit_snear v i D Hi) as N. pose proof (snear_mul 4 4 102 102 _ _ _ _ N N ltac:(lia) ltac:(lia)) as [F [_ [[Z1 Z2]|M]]].
  - right; left. rewrite Z2. auto.
  - right; right. eexists. split; [reflexivity|]. assert (NN : nonneg (asq (vcomp i (unit_vector v)))) by (apply nonneg_sq, fin_notnan, N). rewrite (Rabs_pos_eq (_ * _)) in M by apply Rle_0_sqr.
    apply (near_eq _ _ _ _ _ M); [exact F|]. rewrite B2R_Babs. symmetry. apply Rabs_pos_eq. exact (nonneg_B2R _ NN).
Qed.
Theorem C237_unit_length : forall v, direction v -> is_finite (vmag (unit_vector v)) = true /\ Rabs (B2R (vmag (unit_vector v)) - 1) <= 7 * bpow radix2 (-52).
Proof.
  intros v D. pose proof (len_pos v D) as Pv. pose proof (dot_self_pos v D) as Pd.
  pose proof (sum_strict_acc 9 204 _ _ (Forall2_cons _ _ (unit_term v 0 D ltac:(lia)) (Forall2_cons _ _ (unit_term v 1 D ltac:(lia)) (Forall2_cons _ _ (unit_term v 2 D ltac:(lia)) (Forall2_nil _))))) as A.
  assert (NN : forall y, In y [asq (vcomp 0 (unit_vector v)); asq (vcomp 1 (unit_vector v)); asq (vcomp 2 (unit_vector v))] -> is_nan y = false).
  { intros y H. assert (exists i, (i < 3)%nat /\ y = asq (vcomp i (unit_vector v))) as [i [Hi ->]].
    { destruct H as [<-|[<-|[<-|[]]]]; [exists 0%nat|exists 1%nat|exists 2%nat]; split; try reflexivity; lia. }
    pose proof (term_nan _ _ _ _ (unit_term v i D Hi)) as E. exact E. }
  specialize (A NN ltac:(cbn; lia) ltac:(lia) ltac:(cbn; lia)).
  change [Fin (comp 0 v / len v * (comp 0 v / len v)); Fin (comp 1 v / len v * (comp 1 v / len v)); Fin (comp 2 v / len v * (comp 2 v / len v))]
    with (map Fin [comp 0 v / len v * (comp 0 v / len v); comp 1 v / len v * (comp 1 v / len v); comp 2 v / len v * (comp 2 v / len v)]) in A. rewrite sum_strict_fin in A.
  assert (E1 : Rsum [comp 0 v / len v * (comp 0 v / len v); comp 1 v / len v * (comp 1 v / len v); comp 2 v / len v * (comp 2 v / len v)] = 1).
  { unfold Rsum. cbn [fold_right]. assert (L2 : len v * len v = dot v v) by (unfold len; apply sqrt_sqrt; lra). apply (Rmult_eq_reg_r (len v * len v)); [|nra]. rewrite L2 at 2. unfold dot. field. lra. }
  rewrite E1 in A. destruct A as [[_ [_ E]]|RR]; [injection E as E; lra|].
  assert (RW : rel (2 * 6) (2 * 104) (sum_strict [asq (vcomp 0 (unit_vector v)); asq (vcomp 1 (unit_vector v)); asq (vcomp 2 (unit_vector v))]) (Fin 1)) by (apply (rel_weak _ _ _ _ _ _ RR); cbn; lia).
  pose proof (rel_sqrt 6 104 _ _ RW ltac:(lia) ltac:(lia)) as [s [Es N]]. rewrite fin_sqrt in Es by lra. injection Es as Es. rewrite sqrt_1 in Es. subst s.
  destruct (near_within 7 104 _ _ ltac:(lia) N) as [F B]. split.
  - unfold vmag, unit_vector, vbuild. exact F.
  - replace (INR 7) with 7 in B by (cbn; lra). rewrite Rabs_R1, Rmult_1_r in B. exact B.
Qed.

(* ------------------------------------------------------------------ the hypotheses are met *)
Definition v237 : vec b64 := (aofZ 3, aofZ (-4), aofZ 0).
Definition w237 : vec b64 := (aofZ 1, aofZ 1, aofZ 1).
Example v237_direction : direction v237.
Proof.
  assert (C : forall m e s (x : b64), B2SF x = SpecFloat.S754_finite s m e -> is_finite x = true /\ Rabs (B2R x) = IZR (Zpos m) * bpow radix2 e).
  { intros m e s x H. destruct x as [s'|s'| |s' m' e' H']; try discriminate H. cbn [B2SF] in H. injection H as -> -> ->. split; [reflexivity|]. unfold B2R. rewrite <- F2R_Zabs. unfold F2R. cbn. destruct s; reflexivity. }
  assert (Q : forall (x : b64) m e s, B2SF x = SpecFloat.S754_finite s m e -> (2 ^ 52 <= Zpos m <= 2 ^ 53)%Z -> (-102 <= e)%Z -> (e <= -3)%Z -> comp_ok x /\ B2R x <> 0).
  { intros x m e s H M E1 E2. destruct (C _ _ _ _ H) as [F V]. assert (A : bpow radix2 (-50) <= Rabs (B2R x) <= bpow radix2 50).
    { rewrite V. split.
      - apply Rle_trans with (bpow radix2 52 * bpow radix2 e); [rewrite <- bpow_plus; apply bpow_le; lia|]. apply Rmult_le_compat_r; [apply bpow_ge_0|]. change (bpow radix2 52) with (IZR (2 ^ 52)). apply IZR_le. lia.
      - apply Rle_trans with (bpow radix2 53 * bpow radix2 e); [|rewrite <- bpow_plus; apply bpow_le; lia]. apply Rmult_le_compat_r; [apply bpow_ge_0|]. change (bpow radix2 53) with (IZR (2 ^ 53)). apply IZR_le. lia. }
    split; [split; [exact F|right; exact A]|]. intro Z. rewrite Z, Rabs_R0 in A. pose proof (bpow_gt_0 radix2 (-50)). lra. }
  destruct (Q (aofZ 3) 6755399441055744%positive (-51)%Z false) as [C0 N0]; [lazy; reflexivity|lia|lia|lia|].
  destruct (Q (aofZ (-4)) 4503599627370496%positive (-50)%Z true) as [C1 _]; [lazy; reflexivity|lia|lia|lia|].
  split; [|exists 0%nat; split; [lia|exact N0]]. intros [|[|[|i]]] Hi; [exact C0|exact C1| |lia]. split; [reflexivity|left; reflexivity].
Qed.
Example w237_direction : direction w237.
Proof.
  assert (B : comp_ok (aofZ 1) /\ B2R (aofZ 1 : b64) <> 0).
  { destruct one64 as [F V]. rewrite V. split; [|lra]. split; [exact F|]. right. rewrite V, Rabs_R1. change 1 with (bpow radix2 0). split; apply bpow_le; lia. }
  split; [intros [|[|[|i]]] Hi; [apply B..|lia]|exists 0%nat; split; [lia|apply B]].
Qed.
Example cosine237 : is_finite (cos_theta v237 w237) = true. Proof. apply C237_cosine; [exact v237_direction|exact w237_direction]. Qed.
