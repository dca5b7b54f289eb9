(** C51-C55 (model functions and guesses), C98 (step guess), C99 (moment guess), C100 (one curve, five
    parametrizations), C101 (reported formula), C102 (Moyal), C103 (usable start). *)
From Coq Require Import List String Bool Arith ZArith Reals Lra Lia Permutation.
From Verif Require Import Py PyStr Sort Num FitCore FitFuncs.
Import ListNotations.
Open Scope string_scope.
Open Scope list_scope.
Open Scope R_scope.

(* ---------------------------------------------------------------- lemmas on the finite values *)
Lemma fin_exp a : texp (Fin a) = Fin (exp a). Proof. reflexivity. Qed.
Lemma fin_ln a : 0 < a -> tln (Fin a) = Fin (ln a).
Proof. intros H. change (tln (Fin a)) with (xln (Fin a)). unfold xln. rewrite (proj2 (Rltb_true _ _) H). reflexivity. Qed.
Lemma fin_pow a b : 0 < a -> tpow (Fin a) (Fin b) = Fin (Rpower a b).
Proof. intros H. change (tpow (Fin a) (Fin b)) with (xpow (Fin a) (Fin b)). unfold xpow. rewrite (proj2 (Rltb_true _ _) H). reflexivity. Qed.
Lemma fin_atan a : tatan (Fin a) = Fin (atan a). Proof. reflexivity. Qed.
Lemma fin_tan a : ttan (Fin a) = Fin (tan a). Proof. reflexivity. Qed.
Lemma fin_half : (ahalf : XR) = Fin (1 / 2). Proof. unfold ahalf. rewrite fin_ofQ. reflexivity. Qed.
Lemma hs_neg x h : x < 0 -> heaviside (Fin x) h = Fin 0.
Proof. intros H. unfold heaviside. rewrite fin_isnan, !fin_ofZ, fin_ltb, (proj2 (Rltb_true _ _) H). reflexivity. Qed.
Lemma hs_pos x h : 0 < x -> heaviside (Fin x) h = Fin 1.
Proof.
  intros H. unfold heaviside. rewrite fin_isnan, !fin_ofZ, !fin_ltb, (proj2 (Rltb_true 0 x) H).
  rewrite (proj2 (Rltb_false x 0)) by lra. reflexivity.
Qed.
Lemma hs_zero h : heaviside (Fin 0) h = h.
Proof. unfold heaviside. rewrite fin_isnan, !fin_ofZ, !fin_ltb, (proj2 (Rltb_false 0 0)) by lra. reflexivity. Qed.
Lemma fin_min a b : np_minimum (Fin a) (Fin b) = Fin (Rmin a b).
Proof.
  unfold np_minimum. rewrite !fin_isnan, fin_leb. unfold Rmin, Rleb. destruct (Rle_dec a b); reflexivity.
Qed.
Lemma fin_max a b : np_maximum (Fin a) (Fin b) = Fin (Rmax a b).
Proof.
  unfold np_maximum. rewrite !fin_isnan, fin_leb. unfold Rmax, Rleb. destruct (Rle_dec b a), (Rle_dec a b); try reflexivity; f_equal; lra.
Qed.

(* ================================================================ C51 *)
Theorem C51_step_levels :
  forall x x0 y0 y1,
  (x < x0 -> heavy_side (Fin x) (Fin x0) (Fin y0) (Fin y1) = Fin (y0 + y1)) /\
  (x0 < x -> heavy_side (Fin x) (Fin x0) (Fin y0) (Fin y1) = Fin y0).
Proof.
  intros x x0 y0 y1. unfold heavy_side. rewrite fin_sub. split; intros H.
  - rewrite hs_pos by lra. rewrite fin_mul, fin_add. f_equal. ring.
  - rewrite hs_neg by lra. rewrite fin_mul, fin_add. f_equal. ring.
Qed.
Print Assumptions C51_step_levels.
Definition between (v a b : R) : Prop := Rmin a b <= v <= Rmax a b.
(** At x0 the value lies between the two levels exactly when the upper level is in [0, 2] or there is no step. *)
Theorem C51_at_the_step_partial :
  forall x0 y0 y1, exists v, heavy_side (Fin x0) (Fin x0) (Fin y0) (Fin y1) = Fin v /\
    (between v (y0 + y1) y0 <-> y1 = 0 \/ 0 <= y0 + y1 <= 2).
Proof.
  intros x0 y0 y1. unfold heavy_side. rewrite fin_sub. replace (x0 - x0) with 0 by ring.
  rewrite hs_zero, fin_half, fin_add, !fin_mul, fin_add. eexists. split; [reflexivity|].
  unfold between, Rmin, Rmax. destruct (Rle_dec (y0 + y1) y0); split; intros H.
  - destruct (Req_dec y1 0); [left; assumption|right]. assert (y1 < 0) by lra. destruct H. split; nra.
  - destruct H as [->|[H1 H2]]; [lra|]. split; nra.
  - right. assert (y1 > 0) by lra. destruct H. split; nra.
  - destruct H as [->|[H1 H2]]; [lra|]. split; nra.
Qed.
Print Assumptions C51_at_the_step_partial.
Theorem C51_at_the_step_refuted :
  exists x0 y0 y1 v, heavy_side (Fin x0) (Fin x0) (Fin y0) (Fin y1) = Fin v /\ ~ between v (y0 + y1) y0.
Proof.
  destruct (C51_at_the_step_partial 5 0 4) as (v & E & H). exists 5, 0, 4, v. split; [exact E|].
  rewrite H. intros [Q|Q]; lra.
Qed.
Print Assumptions C51_at_the_step_refuted.

(* ================================================================ C52 *)
Definition bell (mu sigma a x : R) : R := a * exp (- ((x - mu) / sigma) ^ 2 / 2).
Lemma gaussian_fin x mu sigma a : sigma <> 0 -> gaussian (Fin x) (Fin mu) (Fin sigma) (Fin a) = Fin (bell mu sigma a x).
Proof.
  intros H. unfold gaussian. rewrite fin_sub, fin_div, fin_sq, fin_half, fin_opp, fin_mul, fin_exp, fin_mul by exact H.
  unfold bell. do 3 f_equal. field. exact H.
Qed.
(** GaussianPlusHeavySide: the Gaussian on a step, half-way at x0 *)
Theorem C52_gaussian_plus_step :
  forall x x0 y0 y1 mu sigma a, sigma <> 0 ->
  let f := gaussian_plus_heavy_side (Fin x) (Fin x0) (Fin y0) (Fin y1) (Fin mu) (Fin sigma) (Fin a) in
  (x < x0 -> f = Fin (bell mu sigma a x + (y0 + y1))) /\ (x0 < x -> f = Fin (bell mu sigma a x + y0)) /\
  (x = x0 -> exists v, f = Fin v /\ between v (bell mu sigma a x + (y0 + y1)) (bell mu sigma a x + y0)).
Proof.
  intros x x0 y0 y1 mu sigma a NZ f. unfold f, gaussian_plus_heavy_side. rewrite gaussian_fin by exact NZ. rewrite fin_sub, fin_half.
  split; [|split]; intros H.
  - rewrite hs_pos by lra. rewrite fin_mul, !fin_add. f_equal. ring.
  - rewrite hs_neg by lra. rewrite fin_mul, !fin_add. f_equal. ring.
  - replace (x0 - x) with 0 by lra. rewrite hs_zero, fin_mul, !fin_add. eexists. split; [reflexivity|].
    unfold between, Rmin, Rmax. destruct (Rle_dec _ _); lra.
Qed.
Print Assumptions C52_gaussian_plus_step.
(** GaussianTimesHeavySide: nothing left of x0, the Gaussian from x0 on *)
Theorem C52_truncated_gaussian :
  forall x x0 mu sigma a, sigma <> 0 ->
  let f := gaussian_times_heavy_side (Fin x) (Fin x0) (Fin mu) (Fin sigma) (Fin a) in
  (x < x0 -> f = Fin 0) /\ (x0 <= x -> f = Fin (bell mu sigma a x)).
Proof.
  intros x x0 mu sigma a NZ f. unfold f, gaussian_times_heavy_side. rewrite gaussian_fin by exact NZ. rewrite fin_sub, fin_ofZ.
  split; intros H.
  - rewrite hs_neg by lra. rewrite fin_mul. f_equal. ring.
  - destruct (Req_dec x x0) as [->|N].
    + replace (x0 - x0) with 0 by ring. rewrite hs_zero, fin_mul. f_equal. ring.
    + rewrite hs_pos by lra. rewrite fin_mul. f_equal. ring.
Qed.
Print Assumptions C52_truncated_gaussian.
(** GaussianTimesHeavySidePlusHeavySide: the plateau left, the Gaussian right of x0 *)
Theorem C52_plateau_and_gaussian_partial :
  forall x x0 y1 mu sigma a, sigma <> 0 ->
  let f := gaussian_times_plus_heavy_side (Fin x) (Fin x0) (Fin y1) (Fin mu) (Fin sigma) (Fin a) in
  (x < x0 -> f = Fin y1) /\ (x0 < x -> f = Fin (bell mu sigma a x)) /\
  (x = x0 -> f = Fin (bell mu sigma a x + y1)).
Proof.
  intros x x0 y1 mu sigma a NZ f. unfold f, gaussian_times_plus_heavy_side. rewrite gaussian_fin by exact NZ. rewrite !fin_sub, fin_ofZ.
  split; [|split]; intros H.
  - rewrite hs_neg by lra. rewrite hs_pos by lra. rewrite !fin_mul, fin_add. f_equal. ring.
  - rewrite hs_pos by lra. rewrite hs_neg by lra. rewrite !fin_mul, fin_add. f_equal. ring.
  - replace (x - x0) with 0 by lra. replace (x0 - x) with 0 by lra. rewrite !hs_zero, !fin_mul, fin_add. f_equal. ring.
Qed.
Print Assumptions C52_plateau_and_gaussian_partial.
(** At x0 both branches count, for every positive plateau and amplitude. *)
Theorem C52_both_branches_at_x0_refuted :
  forall x0 y1 mu sigma a, sigma <> 0 -> 0 < y1 -> 0 < a ->
  exists v, gaussian_times_plus_heavy_side (Fin x0) (Fin x0) (Fin y1) (Fin mu) (Fin sigma) (Fin a) = Fin v /\
            ~ between v y1 (bell mu sigma a x0).
Proof.
  intros x0 y1 mu sigma a NZ H1 H2. destruct (C52_plateau_and_gaussian_partial x0 x0 y1 mu sigma a NZ) as (_ & _ & E).
  eexists. split; [apply E; reflexivity|]. unfold between.
  assert (0 < bell mu sigma a x0) by (apply Rmult_lt_0_compat; [exact H2|apply exp_pos]).
  unfold Rmax. destruct (Rle_dec _ _); lra.
Qed.
Print Assumptions C52_both_branches_at_x0_refuted.

(* ================================================================ C53 *)
(** The curve through (h, k) with slope m1 before and m2 after. *)
Definition bent (h k m1 m2 x : R) : R := if Rle_dec x h then k + m1 * (x - h) else k + m2 * (x - h).
Lemma bent_min h k m1 m2 x : m2 <= m1 -> Rmin (k + m1 * (x - h)) (k + m2 * (x - h)) = bent h k m1 m2 x.
Proof. intros H. unfold Rmin, bent. destruct (Rle_dec _ _), (Rle_dec x h); try reflexivity; nra. Qed.
Lemma bent_max h k m1 m2 x : m1 <= m2 -> Rmax (k + m1 * (x - h)) (k + m2 * (x - h)) = bent h k m1 m2 x.
Proof. intros H. unfold Rmax, bent. destruct (Rle_dec _ _), (Rle_dec x h); try reflexivity; nra. Qed.
(** The bent curve is continuous, with a Lipschitz constant. *)
Lemma bent_lipschitz h k m1 m2 x x' :
  Rabs (bent h k m1 m2 x - bent h k m1 m2 x') <= Rmax (Rabs m1) (Rabs m2) * Rabs (x - x').
Proof.
  pose proof (Rmax_l (Rabs m1) (Rabs m2)) as L1. pose proof (Rmax_r (Rabs m1) (Rabs m2)) as L2. set (M := Rmax (Rabs m1) (Rabs m2)) in *.
  assert (K : forall m d, Rabs m <= M -> Rabs (m * d) <= M * Rabs d).
  { intros m d H. rewrite Rabs_mult. apply Rmult_le_compat_r; [apply Rabs_pos|exact H]. }
  assert (MIX : forall a b, a <= h -> h < b -> Rabs (k + m1 * (a - h) - (k + m2 * (b - h))) <= M * Rabs (a - b)).
  { intros a b Ha Hb. replace (k + m1 * (a - h) - (k + m2 * (b - h))) with (m1 * (a - h) + m2 * (h - b)) by ring.
    eapply Rle_trans; [apply Rabs_triang|]. pose proof (K m1 (a - h) L1). pose proof (K m2 (h - b) L2).
    rewrite (Rabs_left1 (a - h)) in H by lra. rewrite (Rabs_left1 (h - b)) in H0 by lra. rewrite (Rabs_left1 (a - b)) by lra. lra. }
  unfold bent. destruct (Rle_dec x h), (Rle_dec x' h).
  - replace (k + m1 * (x - h) - (k + m1 * (x' - h))) with (m1 * (x - x')) by ring. apply K, L1.
  - apply MIX; lra.
  - rewrite Rabs_minus_sym, (Rabs_minus_sym x x'). apply MIX; lra.
  - replace (k + m2 * (x - h) - (k + m2 * (x' - h))) with (m2 * (x - x')) by ring. apply K, L2.
Qed.
Theorem C53_bent_curves_are_continuous :
  forall h k m1 m2, bent h k m1 m2 h = k /\
  forall x x', Rabs (bent h k m1 m2 x - bent h k m1 m2 x') <= Rmax (Rabs m1) (Rabs m2) * Rabs (x - x').
Proof.
  intros. split; [unfold bent; destruct (Rle_dec h h); [ring|lra]|]. intros. apply bent_lipschitz.
Qed.
Print Assumptions C53_bent_curves_are_continuous.
(** HingeSaturation through (xh, yh); a slope of at most 1e-15 counts as none. *)
Definition effective_slope (m2 : R) : R := if Rlt_dec (1 / 1000000000000000) (Rabs m2) then m2 else 0.
Theorem C53_hinge_saturation :
  forall x xh yh x1 m2, xh <> x1 -> effective_slope m2 <= yh / (xh - x1) ->
  hinge_saturation (Fin x) (Fin xh) (Fin yh) (Fin x1) (Fin m2) = Fin (bent xh yh (yh / (xh - x1)) (effective_slope m2) x).
Proof.
  intros x xh yh x1 m2 NZ H. unfold hinge_saturation. rewrite fin_sub, fin_div, fin_sub, fin_mul, fin_abs by lra.
  unfold agtb, tiny. rewrite fin_ofQ, fin_ltb. unfold effective_slope, Rltb in *.
  destruct (Rlt_dec (1 / 1000000000000000) (Rabs m2)) as [L|L].
  - assert (N2 : m2 <> 0) by (intros ->; rewrite Rabs_R0 in L; lra).
    rewrite fin_div, !fin_sub, fin_mul, fin_min by exact N2. rewrite <- (bent_min _ _ _ _ x H). f_equal. f_equal; field; lra.
  - rewrite fin_min. rewrite <- (bent_min _ _ _ _ x H). f_equal. f_equal; [field; lra|ring].
Qed.
Print Assumptions C53_hinge_saturation.
(** TwoLine through its reported intersection (xs, s) *)
Lemma twoline_xs_fin x1 x2 m1 m2 : m1 <> m2 -> twoline_xs (Fin x1) (Fin x2) (Fin m1) (Fin m2) = Fin ((m1 * x1 - m2 * x2) / (m1 - m2)).
Proof. intros H. unfold twoline_xs. rewrite !fin_mul, !fin_sub, fin_div by lra. reflexivity. Qed.
Theorem C53_twoline :
  forall x x1 x2 m1 m2, m2 < m1 ->
  exists xs s, twoline_xs (Fin x1) (Fin x2) (Fin m1) (Fin m2) = Fin xs /\ twoline_s (Fin x1) (Fin x2) (Fin m1) (Fin m2) = Fin s /\
    twoline (Fin x) (Fin x1) (Fin x2) (Fin m1) (Fin m2) = Fin (bent xs s m1 m2 x).
Proof.
  intros x x1 x2 m1 m2 H. set (xs := (m1 * x1 - m2 * x2) / (m1 - m2)). exists xs, (m1 * (xs - x1)).
  split; [apply twoline_xs_fin; lra|]. split.
  { unfold twoline_s. rewrite twoline_xs_fin, fin_sub, fin_mul by lra. reflexivity. }
  unfold twoline. rewrite !fin_sub, !fin_mul, fin_min. rewrite <- (bent_min _ _ _ _ x (Rlt_le _ _ H)). f_equal. unfold xs. f_equal; field; lra.
Qed.
Print Assumptions C53_twoline.
Theorem C53_saturation :
  forall x x1 xs s theta, xs <> x1 ->
  let m1 := s / (xs - x1) in let m2 := tan (atan m1 - theta) in m2 <> 0 -> m2 <= m1 ->
  saturation (Fin x) (Fin x1) (Fin xs) (Fin s) (Fin theta) = Fin (bent xs s m1 m2 x).
Proof.
  intros x x1 xs s theta NZ m1 m2 N2 H. unfold saturation. cbv zeta. rewrite (fin_sub xs x1), fin_div by lra. fold m1.
  rewrite fin_atan, (fin_sub (atan m1) theta), fin_tan. fold m2. rewrite fin_div, !fin_sub, !fin_mul, fin_min by exact N2.
  rewrite <- (bent_min _ _ _ _ x H). f_equal. f_equal; [unfold m1|]; field; lra.
Qed.
Print Assumptions C53_saturation.
Theorem C53_hinge_min_max :
  forall x m1 x1 x2 h, h <> x2 ->
  let k := m1 * (h - x1) in let m2 := k / (h - x2) in
  hinge_m2 (Fin m1) (Fin x1) (Fin x2) (Fin h) = Fin m2 /\
  (m2 <= m1 -> hinge_min (Fin x) (Fin m1) (Fin x1) (Fin x2) (Fin h) = Fin (bent h k m1 m2 x)) /\
  (m1 <= m2 -> hinge_max (Fin x) (Fin m1) (Fin x1) (Fin x2) (Fin h) = Fin (bent h k m1 m2 x)).
Proof.
  intros x m1 x1 x2 h NZ k m2.
  assert (M : hinge_m2 (Fin m1) (Fin x1) (Fin x2) (Fin h) = Fin m2).
  { unfold hinge_m2. rewrite !fin_sub, fin_mul, fin_div by lra. reflexivity. }
  split; [exact M|]. unfold hinge_min, hinge_max. rewrite M, !fin_sub, !fin_mul, fin_min, fin_max.
  assert (E1 : m1 * (x - x1) = k + m1 * (x - h)) by (unfold k; ring).
  assert (E2 : m2 * (x - x2) = k + m2 * (x - h)) by (unfold m2, k; field; lra).
  rewrite E1, E2. split; intros H; [rewrite (bent_min _ _ _ _ x H)|rewrite (bent_max _ _ _ _ x H)]; reflexivity.
Qed.
Print Assumptions C53_hinge_min_max.
Theorem C53_hinge_at_point :
  forall x xh yh m1 m2, m1 <> 0 -> m2 <> 0 -> m2 <= m1 ->
  hinge_at_point (Fin x) (Fin xh) (Fin yh) (Fin m1) (Fin m2) = Fin (bent xh yh m1 m2 x).
Proof.
  intros x xh yh m1 m2 N1 N2 H. unfold hinge_at_point. rewrite !fin_div, !fin_sub, !fin_mul, fin_min by assumption.
  rewrite <- (bent_min _ _ _ _ x H). f_equal. f_equal; field; lra.
Qed.
Print Assumptions C53_hinge_at_point.
(** A flat second branch makes HingeAtPoint and Saturation undefined everywhere instead of horizontal. *)
Lemma div_zero_not_fin a : (exists b, adiv (Fin a) (Fin 0) = Fin b) -> False.
Proof.
  intros [b H]. change (adiv (Fin a) (Fin 0)) with (xdiv (Fin a) (Fin 0)) in H. unfold xdiv in H.
  rewrite (proj2 (Reqb_true 0 0) eq_refl) in H. unfold inf_sign in H. destruct (Rltb 0 a); [discriminate|]. destruct (Rltb a 0); discriminate.
Qed.
Lemma zero_times_nonfin x : (forall b, x <> Fin b) -> amul (Fin 0) x = NaN.
Proof.
  intros H. destruct x as [b| | |]; [elim (H b); reflexivity| | |reflexivity];
    [change (amul (Fin 0) PInf) with (xmul (Fin 0) PInf)|change (amul (Fin 0) MInf) with (xmul (Fin 0) MInf)];
    unfold xmul, inf_sign; rewrite (proj2 (Rltb_false 0 0)) by lra; reflexivity.
Qed.
Lemma flat_branch x xh yh : amul (Fin 0) (asub (Fin x) (asub (Fin xh) (adiv (Fin yh) (Fin 0)))) = NaN.
Proof.
  apply zero_times_nonfin. intros b H. apply (div_zero_not_fin yh).
  destruct (adiv (Fin yh) (Fin 0)) as [c| | |]; [eauto| | |];
    change asub with xsub in H; cbv in H; discriminate.
Qed.
Lemma min_nan_r a : np_minimum a NaN = NaN.
Proof. unfold np_minimum. destruct a; try reflexivity. Qed.
Theorem C53_flat_branch_undefined_refuted :
  (forall x xh yh m1, hinge_at_point (Fin x) (Fin xh) (Fin yh) (Fin m1) (Fin 0) = NaN) /\
  (forall x x1 xs s, xs <> x1 -> saturation (Fin x) (Fin x1) (Fin xs) (Fin s) (Fin (atan (s / (xs - x1)))) = NaN).
Proof.
  split.
  - intros. unfold hinge_at_point. rewrite flat_branch. apply min_nan_r.
  - intros x x1 xs s NZ. unfold saturation. cbv zeta. rewrite (fin_sub xs x1), fin_div by lra. rewrite fin_atan, (fin_sub (atan _)), fin_tan.
    rewrite (Rminus_diag_eq (atan _)) by reflexivity. rewrite tan_0, flat_branch. apply min_nan_r.
Qed.
Print Assumptions C53_flat_branch_undefined_refuted.
(** With the slopes in the other order (a concave-up pair) the documented branches are exchanged. *)
Theorem C53_branches_exchanged_refuted :
  exists xh yh x1 m2 x, xh <> x1 /\ x < xh /\
    hinge_saturation (Fin x) (Fin xh) (Fin yh) (Fin x1) (Fin m2) <> Fin (yh / (xh - x1) * (x - x1)).
Proof.
  exists 1, 1, 0, 2, 0. split; [lra|]. split; [lra|]. unfold hinge_saturation. rewrite fin_sub, fin_div, fin_sub, fin_mul, fin_abs by lra.
  unfold agtb, tiny. rewrite fin_ofQ, fin_ltb.
  rewrite (proj2 (Rltb_true _ _)) by (rewrite Rabs_right; lra). rewrite fin_div, !fin_sub, fin_mul, fin_min by lra.
  intros H. apply Fin_inj in H. revert H. unfold Rmin. destruct (Rle_dec _ _); lra.
Qed.
Print Assumptions C53_branches_exchanged_refuted.
Example C53_ex : 5 <> 0 /\ effective_slope 0 <= 10 / (5 - 0) /\ (1:R) < 2 /\ (4:R) <> 3.
Proof. unfold effective_slope. destruct (Rlt_dec _ _); lra. Qed.
