(** C185 (guesses of truncated Gaussians), C186 (saturating exponential), C187 (saturation), C188 (hinge saturation),
    C189 (named parameters of the remaining models), C190 (uncertainties), C191 (robust chi^2). *)
From Coq Require Import List String Bool Arith ZArith Reals Lra Lia Permutation.
From Verif Require Import Py PyStr Sort Num FitCore FitFuncs MoreFits FitCoreThms FitFuncsThms FitGuessThms FitShapeThms Tight3Thms.
Import ListNotations.
Open Scope string_scope.
Open Scope list_scope.
Open Scope R_scope.

Lemma ok_eq {X} (a b : X) : Ok a = Ok b -> a = b. Proof. congruence. Qed.
(* ================================================================ C185 *)
Definition right_of (x0 : R) (pts : list (R * R)) : list (R * R) := filter (fun z => Rltb x0 (fst z)) pts.
Definition up_to (x0 : R) (pts : list (R * R)) : list (R * R) := filter (fun z => Rleb (fst z) x0) pts.
Lemma right_of_In x0 pts z : In z (right_of x0 pts) <-> In z pts /\ x0 < fst z.
Proof. unfold right_of. rewrite filter_In, Rltb_true. tauto. Qed.
Lemma spread2_nonneg pts : histogram pts -> 0 <= spread2 pts.
Proof.
  intros HG. pose proof (total_pos pts HG) as TP. destruct HG as [NN _].
  unfold spread2. apply Rmult_le_pos; [|left; apply Rinv_0_lt_compat, TP]. apply Rsum_nonneg. intros y Hy. apply in_map_iff in Hy.
  destruct Hy as (z & <- & I). apply Rmult_le_pos; [apply pow2_ge_0|apply NN, I].
Qed.
Lemma moments_fin x0 pts : histogram (right_of x0 pts) ->
  moments (fun v => agtb v (Fin x0)) (xs_of pts) (ys_of pts) = (Fin (center (right_of x0 pts)), Fin (sqrt (spread2 (right_of x0 pts)))).
Proof.
  intros HG. pose proof (total_pos _ HG) as TP. unfold moments.
  rewrite (pick_fin _ (fun a => Rltb x0 a) pts fst), (pick_fin _ (fun a => Rltb x0 a) pts snd) by (intros a; unfold agtb; apply fin_ltb).
  fold (right_of x0 pts). rewrite wmean_fin, wvar_fin by lra. rewrite fin_sqrt by (apply spread2_nonneg, HG). reflexivity.
Qed.
Lemma pick_right x0 pts : pick (fun v => agtb v (Fin x0)) (xs_of pts) (ys_of pts) = map Fin (map snd (right_of x0 pts)).
Proof. rewrite (pick_fin _ (fun a => Rltb x0 a) pts snd) by (intros a; unfold agtb; apply fin_ltb). rewrite map_map. reflexivity. Qed.
Lemma center_between lo hi pts : histogram pts -> (forall p, In p pts -> 0 < snd p -> lo <= fst p <= hi) -> lo <= center pts <= hi.
Proof.
  intros HG B. pose proof (total_pos pts HG) as TP. destruct HG as [NN _].
  assert (E : center pts * total pts = Rsum (map (fun p => fst p * snd p) pts)) by (unfold center; field; lra).
  assert (W : forall p, In p pts -> lo * snd p <= fst p * snd p <= hi * snd p).
  { intros p Ip. destruct (NN p Ip) as [P|P]; [|rewrite <- P; lra]. specialize (B p Ip P). split; apply Rmult_le_compat_r; lra. }
  split; apply Rmult_le_reg_r with (total pts); try exact TP; rewrite E; unfold total; rewrite <- Rsum_map_scal; apply Rsum_le; intros z Hz; apply (W z Hz).
Qed.
Lemma center_above x0 pts : histogram pts -> (forall p, In p pts -> x0 < fst p) -> x0 < center pts.
Proof.
  intros HG B. pose proof (total_pos pts HG) as TP. destruct HG as [NN (p & Ip & Hp)].
  apply Rmult_lt_reg_r with (total pts); [exact TP|]. unfold center. replace (_ / total pts * total pts) with (Rsum (map (fun p => fst p * snd p) pts)) by (field; lra).
  unfold total. rewrite <- Rsum_map_scal. clear TP. induction pts as [|q r IH]; [contradiction|]. cbn [map Rsum].
  assert (Q : x0 * snd q <= fst q * snd q) by (apply Rmult_le_compat_r; [apply NN; left; reflexivity|left; apply B; left; reflexivity]).
  destruct Ip as [<-|Ip].
  - assert (L : x0 * snd q < fst q * snd q) by (apply Rmult_lt_compat_r; [exact Hp|apply B; left; reflexivity]).
    assert (Rsum (map (fun x => x0 * snd x) r) <= Rsum (map (fun x => fst x * snd x) r)).
    { apply Rsum_le. intros z Hz. apply Rmult_le_compat_r; [apply NN; right; exact Hz|left; apply B; right; exact Hz]. }
    lra.
  - assert (Rsum (map (fun x => x0 * snd x) r) < Rsum (map (fun x => fst x * snd x) r)).
    { apply IH; [intros z Hz; apply NN; right; exact Hz|exact Ip|intros z Hz; apply B; right; exact Hz]. }
    lra.
Qed.
(** The level before the step: the mean of the observations up to the transition, 0 if there are none. *)
Definition level (l : list R) : R := match l with [] => 0 | _ => rmean l end.
(** The guesses describe the observations beyond the transition: centre, spread and largest value. *)
Theorem C185_truncated_guess :
  forall x0 pts, histogram (right_of x0 pts) ->
  exists mu sigma amp,
  gaussian_times_heavy_side_p0 (Fin x0) (real_obs pts) = Ok (Some [Fin x0; Fin mu; Fin sigma; Fin amp]) /\
  gaussian_times_plus_heavy_side_p0 (Fin x0) (real_obs pts) =
    Ok (Some [Fin x0; Fin (level (map snd (up_to x0 pts))); Fin mu; Fin sigma; Fin amp]) /\
  mu = center (right_of x0 pts) /\ x0 < mu /\ 0 <= sigma /\ sigma ^ 2 = spread2 (right_of x0 pts) /\
  is_max amp (map snd (right_of x0 pts)) /\ 0 < amp.
Proof.
  intros x0 pts HG. destruct (arr_max_fin (map snd (right_of x0 pts))) as (v & E & M).
  { destruct HG as [_ (p & Ip & _)]. destruct (right_of x0 pts); [contradiction|discriminate]. }
  exists (center (right_of x0 pts)), (sqrt (spread2 (right_of x0 pts))), v.
  unfold gaussian_times_heavy_side_p0, gaussian_times_plus_heavy_side_p0, real_obs. cbn [o_x o_y].
  rewrite moments_fin, pick_right, E by exact HG. cbn [rmap].
  split; [reflexivity|]. split.
  { rewrite (pick_fin _ (fun a => Rleb a x0) pts snd).
    2: { intros a. unfold agtb. rewrite fin_ltb. unfold Rltb, Rleb. destruct (Rlt_dec x0 a), (Rle_dec a x0); try reflexivity; lra. }
    fold (up_to x0 pts). rewrite (ys_map (up_to x0 pts)). generalize (map snd (up_to x0 pts)). intros l. unfold arr_mean. rewrite sum_strict_fin, map_length, fin_ofZ.
    destruct l as [|a l].
    - cbn [List.length Rsum]. change (adiv (Fin 0) (Fin (IZR (Z.of_nat 0)))) with (xdiv (Fin 0) (Fin 0)). unfold xdiv. rewrite (proj2 (Reqb_true 0 0) eq_refl).
      unfold inf_sign. rewrite !(proj2 (Rltb_false 0 0)) by lra. cbn [level]. change (aisnan NaN) with true. cbn. rewrite fin_ofZ. reflexivity.
    - assert (N : IZR (Z.of_nat (List.length (a :: l))) <> 0) by (apply not_0_IZR; cbn; lia).
      rewrite fin_div, fin_isnan by exact N. unfold level, rmean. rewrite <- INR_IZR_INZ. reflexivity. }
  split; [reflexivity|]. split; [apply center_above; [exact HG|intros p Ip; apply right_of_In in Ip; tauto]|].
  split; [apply sqrt_pos|]. split; [rewrite <- Rsqr_pow2; apply Rsqr_sqrt, spread2_nonneg, HG|]. split; [exact M|].
  destruct HG as [_ (p & Ip & Hp)]. apply Rlt_le_trans with (snd p); [exact Hp|apply M, in_map, Ip].
Qed.
Print Assumptions C185_truncated_guess.
(** Without an observation beyond the transition, or without a transition, there is no guess and no fit. *)
Theorem C185_nothing_beyond :
  (forall x0 pts, (forall p, In p pts -> fst p <= x0) ->
     gaussian_times_heavy_side_p0 (Fin x0) (real_obs pts) = Err ValueError /\
     gaussian_times_plus_heavy_side_p0 (Fin x0) (real_obs pts) = Err ValueError) /\
  GaussianTimesHeavySide (T := XR) None = Err ValueError /\ GaussianTimesHeavySidePlusHeavySide (T := XR) None = Err ValueError /\
  (forall x0 c, GaussianTimesHeavySide (T := XR) (Some (Fin x0)) = Ok c \/ GaussianTimesHeavySidePlusHeavySide (T := XR) (Some (Fin x0)) = Ok c ->
     forall lsq o k, ff_class o = c -> (exists pts, u_used (ff_obs o) = real_obs pts /\ forall p, In p pts -> fst p <= x0) -> enough o ->
     k_absolute_sigma k = false -> make_fit lsq o true k = (Returned (Some ValueError), o) /\ make_fit lsq o false k = (Raised ValueError, o)).
Proof.
  assert (G : forall x0 pts, (forall p, In p pts -> fst p <= x0) ->
     gaussian_times_heavy_side_p0 (Fin x0) (real_obs pts) = Err ValueError /\
     gaussian_times_plus_heavy_side_p0 (Fin x0) (real_obs pts) = Err ValueError).
  { intros x0 pts H. assert (E : right_of x0 pts = []).
    { destruct (right_of x0 pts) as [|z l] eqn:Q; [reflexivity|]. assert (I : In z (right_of x0 pts)) by (rewrite Q; left; reflexivity).
      apply right_of_In in I. destruct I as [I1 I2]. specialize (H z I1). lra. }
    unfold gaussian_times_heavy_side_p0, gaussian_times_plus_heavy_side_p0, real_obs. cbn [o_x o_y].
    rewrite pick_right, E. cbn [map arr_max]. destruct (moments (fun v => agtb v (Fin x0)) (xs_of pts) (ys_of pts)). split; reflexivity. }
  split; [exact G|]. split; [reflexivity|]. split; [reflexivity|].
  intros x0 c C lsq o k EC (pts & U & H) EN AS. destruct (G x0 pts H) as [G1 G2].
  assert (R : run_least_squares lsq o k = Err ValueError).
  { unfold run_least_squares. rewrite EC, U. destruct C as [C|C]; cbn in C; apply ok_eq in C; subst c; cbn [c_p0]; [rewrite G1|rewrite G2]; reflexivity. }
  assert (D : c_discards (ff_class o) = false).
  { rewrite EC. destruct C as [C|C]; cbn in C; apply ok_eq in C; subst c; reflexivity. }
  unfold make_fit, base_make_fit. rewrite D, R, AS. unfold enough in EN. rewrite (proj2 (Nat.leb_le _ _) EN). cbn. split; reflexivity.
Qed.
Print Assumptions C185_nothing_beyond.
(** Gaussian on a step: transition at three quarters of the centre, step of four fifths of the largest value,
    Gaussian from the observations beyond the transition, whenever the abscissae are positive. *)
Theorem C185_gaussian_plus_step_guess_partial :
  forall pts, histogram pts -> (forall p, In p pts -> 0 < fst p) ->
  exists mu sigma amp, let x0 := 3 / 4 * center pts in
  gaussian_plus_heavy_side_p0 (real_obs pts) = Ok (Some [Fin x0; Fin 0; Fin (4 / 5 * amp); Fin mu; Fin sigma; Fin amp]) /\
  is_max amp (map snd pts) /\ 0 < x0 < mu /\ mu = center (right_of x0 pts) /\ 0 <= sigma /\ sigma ^ 2 = spread2 (right_of x0 pts).
Proof.
  intros pts HG POS. pose proof (total_pos pts HG) as TP. destruct (arr_max_fin (map snd pts)) as (v & E & M).
  { destruct HG as [_ (p & Ip & _)]. destruct pts; [contradiction|discriminate]. }
  pose proof (center_above 0 pts HG POS) as CP. set (x0 := 3 / 4 * center pts).
  assert (HR : histogram (right_of x0 pts)).
  { split; [intros p Ip; apply right_of_In in Ip; apply HG; tauto|].
    destruct (Classical_Prop.classic (exists p, In p (right_of x0 pts) /\ 0 < snd p)) as [?|N]; [assumption|exfalso].
    assert (B : 0 <= center pts <= x0).
    { apply center_between; [exact HG|]. intros p Ip Hp. split; [left; apply POS, Ip|]. apply Rnot_lt_le. intros L. apply N. exists p. split; [apply right_of_In; split; assumption|exact Hp]. }
    unfold x0 in B. lra. }
  exists (center (right_of x0 pts)), (sqrt (spread2 (right_of x0 pts))), v. cbv zeta.
  split.
  { unfold gaussian_plus_heavy_side_p0, real_obs. cbn [o_x o_y]. rewrite <- ys_map in E. rewrite wmean_fin, E by lra. cbn [rmap]. cbv zeta.
    rewrite !fin_ofQ, fin_ofZ, !fin_mul. fold x0. rewrite moments_fin by exact HR. reflexivity. }
  split; [exact M|]. split; [split; [unfold x0; lra|apply center_above; [exact HR|intros p Ip; apply right_of_In in Ip; tauto]]|].
  split; [reflexivity|]. split; [apply sqrt_pos|]. rewrite <- Rsqr_pow2. apply Rsqr_sqrt, spread2_nonneg, HR.
Qed.
Print Assumptions C185_gaussian_plus_step_guess_partial.
(** At negative abscissae three quarters of the centre lies beyond all observations: the start is NaN. *)
Theorem C185_gaussian_plus_step_negative_refuted :
  forall a pts, 0 < a -> histogram pts -> (forall p, In p pts -> - (4 / 3 * a) <= fst p <= - a) ->
  exists x0 y1 amp, gaussian_plus_heavy_side_p0 (real_obs pts) = Ok (Some [Fin x0; Fin 0; Fin y1; NaN; NaN; Fin amp]) /\
  forall x y0 y1', gaussian_plus_heavy_side (Fin x) (Fin x0) y0 y1' NaN NaN (Fin amp) = NaN.
Proof.
  intros a pts PA HG B. pose proof (total_pos pts HG) as TP. destruct (arr_max_fin (map snd pts)) as (v & E & M).
  { destruct HG as [_ (p & Ip & _)]. destruct pts; [contradiction|discriminate]. }
  destruct (center_between (- (4 / 3 * a)) (- a) pts HG) as [C1 C2]; [intros p Ip _; apply B, Ip|].
  set (x0 := 3 / 4 * center pts).
  assert (R0 : right_of x0 pts = []).
  { destruct (right_of x0 pts) as [|z l] eqn:Q; [reflexivity|]. assert (I : In z (right_of x0 pts)) by (rewrite Q; left; reflexivity).
    apply right_of_In in I. destruct I as [I1 I2]. specialize (B z I1). unfold x0 in I2. lra. }
  exists x0, (4 / 5 * v), v. split.
  - unfold gaussian_plus_heavy_side_p0, real_obs. cbn [o_x o_y]. rewrite <- ys_map in E. rewrite wmean_fin, E by lra. cbn [rmap]. cbv zeta.
    rewrite !fin_ofQ, fin_ofZ, !fin_mul. fold x0. unfold moments.
    rewrite (pick_fin _ (fun a => Rltb x0 a) pts fst), (pick_fin _ (fun a => Rltb x0 a) pts snd) by (intros b; unfold agtb; apply fin_ltb).
    fold (right_of x0 pts). rewrite R0. cbn [map].
    assert (Z : forall l : list XR, l = [] -> adiv (sum_strict l) (sum_strict l) = NaN).
    { intros l ->. unfold sum_strict. cbn [fold_left]. rewrite fin_a0. change (adiv (Fin 0) (Fin 0)) with (xdiv (Fin 0) (Fin 0)). unfold xdiv.
      rewrite (proj2 (Reqb_true 0 0) eq_refl). unfold inf_sign. rewrite !(proj2 (Rltb_false 0 0)) by lra. reflexivity. }
    unfold wvar, wmean. cbn [map2]. rewrite !Z by reflexivity. reflexivity.
  - intros x y0 y1'. unfold gaussian_plus_heavy_side, gaussian. rewrite nan_sub_r, nan_div_l.
    rewrite (nan_mul_r (aopp ahalf)). change (texp (T := XR) NaN) with (NaN : XR). rewrite (nan_mul_r (Fin v)). apply nan_add_l.
Qed.
Print Assumptions C185_gaussian_plus_step_negative_refuted.
Example C185_ex : histogram (right_of 1 [(0, 5); (1, 7); (2, 3); (3, 1)]) /\ up_to 1 [(0, 5); (1, 7); (2, 3); (3, 1)] = [(0, 5); (1, 7)] /\
  histogram [(-4 / 3, 1); (-1, 2)].
Proof.
  assert (E : right_of 1 [(0, 5); (1, 7); (2, 3); (3, 1)] = [(2, 3); (3, 1)]).
  { unfold right_of. cbn [filter fst]. rewrite (proj2 (Rltb_false 1 0)), (proj2 (Rltb_false 1 1)), (proj2 (Rltb_true 1 2)), (proj2 (Rltb_true 1 3)) by lra. reflexivity. }
  rewrite E. split; [|split].
  - split; [intros p [<-|[<-|[]]]; cbn; lra|exists (2, 3); cbn; split; [auto|lra]].
  - unfold up_to. cbn [filter fst]. rewrite (Rleb_t 0 1), (Rleb_t 1 1), (Rleb_f 2 1), (Rleb_f 3 1) by lra. reflexivity.
  - split; [intros p [<-|[<-|[]]]; cbn; lra|exists (-1, 2); cbn; split; [auto|lra]].
Qed.

(* ================================================================ C186 *)
(** A saturating exponential can be fitted only after its level was set; what is caught otherwise is not this error. *)
Theorem C186_no_fit_without_level_partial :
  forall lsq rejects o re k r o', ff_class o = ExponentialCDF (T := XR) None ->
  make_fit (cdf_optimiser None rejects lsq) o re k = (r, o') ->
  o' = o /\ r <> Returned None /\
  (enough o -> k_absolute_sigma k = false -> (forall p bd, rejects p bd = None) -> (exists lb ub, k_bounds k = BPair lb ub) ->
   r = Raised AttributeError).
Proof.
  intros lsq rejects o re k r o' C H. unfold make_fit, base_make_fit in H. rewrite C in H. cbn [c_args c_discards ExponentialCDF] in H.
  assert (R : exists e, run_least_squares (cdf_optimiser None rejects lsq) o k = Err e /\
     ((forall p bd, rejects p bd = None) -> (exists lb ub, k_bounds k = BPair lb ub) -> e = AttributeError)).
  { unfold run_least_squares. rewrite C. cbn [c_p0 ExponentialCDF c_args]. destruct (resolve_bounds ["c"] (k_bounds k)) as [bd|e] eqn:B.
    - unfold cdf_optimiser. destruct (rejects _ bd) as [e|] eqn:Q.
      + exists e. split; [reflexivity|]. intros N. rewrite N in Q. discriminate.
      + exists AttributeError. split; reflexivity.
    - exists e. split; [reflexivity|]. intros _ (lb & ub & K). rewrite K in B. discriminate. }
  destruct R as (e & R & RA). rewrite R in H.
  destruct (Nat.leb (List.length ["c"]) (nobs (ff_obs o))) eqn:LE; cbn [negb] in H.
  - destruct (k_absolute_sigma k) eqn:KA; cbv beta iota in H.
    + inversion H; subst. split; [reflexivity|]. split; [discriminate|]. intros; discriminate.
    + inversion H; subst. split; [reflexivity|]. split; [destruct (caught e && re); discriminate|].
      intros _ _ N K. rewrite (RA N K). reflexivity.
  - cbv beta iota in H. inversion H; subst. split; [reflexivity|]. split; [destruct re; discriminate|].
    intros EN. unfold enough in EN. rewrite C in EN. cbn [c_args ExponentialCDF] in EN. apply Nat.leb_le in EN. rewrite EN in LE. discriminate.
Qed.
Print Assumptions C186_no_fit_without_level_partial.
(** After the level is set the fitted curve starts at 0 and approaches the level without reaching it; setting another
    level later rescales the curve and keeps the fitted parameter, and nothing is refitted. *)
Theorem C186_level_scales_the_curve :
  forall o c y0, dict_get "c" (match ff_popt o with Some p => p | None => [] end) = Ok (Fin c) ->
  cdf_evaluate (T := XR) (Some (Fin y0)) o (Fin 0) = Ok (Fin 0) /\
  (forall x, exists g, cdf_evaluate (Some (Fin y0)) o (Fin x) = Ok (Fin (y0 * g)) /\ (0 < c -> 0 < x -> 0 < g < 1) /\
     cdf_evaluate (Some (Fin y0)) o (Fin x) = evaluate (cdf_set_y0 o (Fin y0)) (Fin x) /\
     forall y0', cdf_evaluate (Some (Fin y0')) (cdf_set_y0 o (Fin y0')) (Fin x) = Ok (Fin (y0' * g))) /\
  ff_popt (cdf_set_y0 o (Fin y0)) = ff_popt o /\ cdf_evaluate None o (Fin 0) = Err AttributeError.
Proof.
  intros o c y0 H. destruct (ff_popt o) as [p|] eqn:P; [|discriminate].
  assert (V : forall y x, cdf_evaluate (Some (Fin y)) o (Fin x) = Ok (Fin (y * (1 - exp (- (c * x)))))).
  { intros y x. unfold cdf_evaluate. rewrite P, H. cbn [rmap]. unfold exponential_cdf.
    rewrite fin_mul, fin_opp, fin_exp, fin_ofZ, fin_sub, fin_mul. reflexivity. }
  split; [rewrite V; do 2 f_equal; rewrite Rmult_0_r, Ropp_0, exp_0; ring|]. split; [|split; [cbn [cdf_set_y0 ff_popt]; exact P|]].
  - intros x. exists (1 - exp (- (c * x))). split; [apply V|]. split.
    + intros PC PX. assert (exp (- (c * x)) < 1) by (rewrite <- exp_0; apply exp_increasing; nra). pose proof (exp_pos (- (c * x))). lra.
    + split.
      * unfold evaluate, cdf_evaluate, cdf_set_y0. cbn [ff_popt ff_class ExponentialCDF c_args c_fun mapM]. rewrite P, H. reflexivity.
      * intros y0'. unfold cdf_evaluate. cbn [cdf_set_y0 ff_popt]. rewrite P. specialize (V y0' x). unfold cdf_evaluate in V. rewrite P in V. exact V.
  - unfold cdf_evaluate. rewrite P, H. reflexivity.
Qed.
Print Assumptions C186_level_scales_the_curve.
Definition ex_cdf : ffobj (T := XR) :=
  {| ff_class := ExponentialCDF None; ff_obs := mkUsedRaw (real_obs [(1, 2)]) (real_obs [(1, 2)]) [true];
     ff_popt := Some [("c", Fin 3)]; ff_psigma := None |}.
Example C186_ex : ff_class ex_cdf = ExponentialCDF None /\ enough ex_cdf /\ dict_get "c" [("c", Fin 3)] = Ok (Fin 3).
Proof. split; [reflexivity|]. split; [|reflexivity]. unfold enough. cbn. lia. Qed.

(* ================================================================ C187 *)
(** What a Saturation reports about its second line: both lines pass through (xs, s), the fitted curve is the lower of
    the two, and theta is the angle between them unless they would be more than a right angle beyond the vertical. *)
Theorem C187_reported_lines :
  forall x1 xs s theta, xs <> x1 ->
  exists m1 m2, saturation_m1 (Fin x1) (Fin xs) (Fin s) = Fin m1 /\ saturation_m2 (Fin x1) (Fin xs) (Fin s) (Fin theta) = Fin m2 /\
  m1 * (xs - x1) = s /\
  (- (PI / 2) < atan m1 - theta < PI / 2 -> theta = atan m1 - atan m2) /\
  (m2 <> 0 -> exists x2, saturation_x2 (Fin x1) (Fin xs) (Fin s) (Fin theta) = Fin x2 /\ m2 * (xs - x2) = s /\
     forall x, saturation (Fin x) (Fin x1) (Fin xs) (Fin s) (Fin theta) = Fin (Rmin (m1 * (x - x1)) (m2 * (x - x2)))).
Proof.
  intros x1 xs s theta N. set (m1 := s / (xs - x1)). set (m2 := tan (atan m1 - theta)). exists m1, m2.
  assert (E1 : saturation_m1 (Fin x1) (Fin xs) (Fin s) = Fin m1) by (unfold saturation_m1; rewrite fin_sub, fin_div by lra; reflexivity).
  assert (E2 : saturation_m2 (Fin x1) (Fin xs) (Fin s) (Fin theta) = Fin m2).
  { unfold saturation_m2. rewrite E1, fin_atan, fin_sub, fin_tan. reflexivity. }
  split; [exact E1|]. split; [exact E2|]. split; [unfold m1; field; lra|]. split.
  - intros B. unfold m2. rewrite atan_tan by lra. ring.
  - intros NZ. exists (xs - s / m2). split; [unfold saturation_x2; rewrite E2, fin_div, fin_sub by exact NZ; reflexivity|].
    split; [field; exact NZ|]. intros x. unfold saturation. cbv zeta. rewrite (fin_sub xs x1), fin_div by lra. fold m1.
    rewrite fin_atan, (fin_sub (atan m1) theta), fin_tan. fold m2. rewrite fin_div, !fin_sub, !fin_mul, fin_min by exact NZ. reflexivity.
Qed.
Print Assumptions C187_reported_lines.
(** The guessed angle: the second line of the guess has the slope of the second half of the data. *)
Definition turn (m1 m2 : R) : R :=
  if Req_EM_T (1 + m1 * m2) 0 then (if Rlt_dec m2 m1 then PI / 2 else - (PI / 2)) else atan ((m1 - m2) / (1 + m1 * m2)).
Lemma turn_fin m1 m2 : m1 <> m2 -> tatan (adiv (Fin (m1 - m2)) (Fin (1 + m1 * m2))) = Fin (turn m1 m2).
Proof.
  intros N. unfold turn. destruct (Req_EM_T (1 + m1 * m2) 0) as [Z|NZ].
  - rewrite Z. change (adiv (Fin (m1 - m2)) (Fin 0)) with (xdiv (Fin (m1 - m2)) (Fin 0)). unfold xdiv. rewrite (proj2 (Reqb_true 0 0) eq_refl). unfold inf_sign.
    destruct (Rlt_dec m2 m1) as [L|L].
    + rewrite (proj2 (Rltb_true 0 (m1 - m2))) by lra. reflexivity.
    + rewrite (proj2 (Rltb_false 0 (m1 - m2))), (proj2 (Rltb_true (m1 - m2) 0)) by lra. reflexivity.
  - rewrite fin_div by exact NZ. apply fin_atan.
Qed.
Lemma cos_atan_nz m : cos (atan m) <> 0.
Proof. pose proof (atan_bound m). apply Rgt_not_eq, cos_gt_0; lra. Qed.
Lemma tan_turn m1 m2 : m1 <> m2 -> tan (atan m1 - turn m1 m2) = m2.
Proof.
  intros N. unfold turn. destruct (Req_EM_T (1 + m1 * m2) 0) as [Z|NZ].
  - assert (M1 : m1 <> 0) by (intros E; rewrite E in Z; lra).
    assert (T1 : sin (atan m1) = m1 * cos (atan m1)).
    { rewrite <- (tan_atan m1) at 2. unfold tan. field. apply cos_atan_nz. }
    assert (M2 : m2 = - / m1) by (apply Rmult_eq_reg_l with m1; [|exact M1]; rewrite Ropp_mult_distr_r_reverse, Rinv_r by exact M1; lra).
    pose proof (cos_atan_nz m1) as C.
    destruct (Rlt_dec m2 m1); unfold tan; [|unfold Rminus; rewrite Ropp_involutive]; rewrite ?sin_minus, ?cos_minus, ?sin_plus, ?cos_plus, sin_PI2, cos_PI2, T1, M2; field; split; assumption.
  - set (t := (m1 - m2) / (1 + m1 * m2)).
    assert (K : 1 + m1 * t = (1 + m1 * m1) / (1 + m1 * m2)) by (unfold t; field; exact NZ).
    assert (Q : 1 + m1 * t <> 0).
    { rewrite K. unfold Rdiv. apply Rmult_integral_contrapositive_currified; [nra|apply Rinv_neq_0_compat, NZ]. }
    assert (S1 : sin (atan m1) = m1 * cos (atan m1)) by (rewrite <- (tan_atan m1) at 2; unfold tan; field; apply cos_atan_nz).
    assert (S2 : sin (atan t) = t * cos (atan t)) by (rewrite <- (tan_atan t) at 2; unfold tan; field; apply cos_atan_nz).
    assert (D : cos (atan m1 - atan t) <> 0).
    { rewrite cos_minus, S1, S2. replace (_ + _) with (cos (atan m1) * cos (atan t) * (1 + m1 * t)) by ring.
      repeat apply Rmult_integral_contrapositive_currified; try apply cos_atan_nz. exact Q. }
    rewrite tan_minus; try apply cos_atan_nz; try exact D; rewrite ?tan_atan; [|exact Q].
    rewrite K. unfold t. field. split; first [exact NZ|nra].
Qed.
Theorem C187_guess :
  forall pts g gs m1 x1 m2 x2,
  let left := filter (fun z => Rleb (fst z) g) pts in
  let right := filter (fun z => negb (Rleb (fst z) g)) pts in
  (2 <= List.length left)%nat -> (2 <= List.length right)%nat -> steps_ok left -> steps_ok right ->
  through m1 x1 left -> through m2 x2 right -> m1 <> 0 -> m2 <> 0 -> m1 <> m2 ->
  (** the guess: intercept of the first line, the given transition, the mean of both lines there, the turn *)
  saturation_p0 (Fin g) gs (real_obs pts) =
    Ok (Some [Fin x1; Fin g; Fin ((m1 * (g - x1) + m2 * (g - x2)) / 2); Fin (turn m1 m2)]) /\
  (** where the lines meet at the given transition and bend downwards, the guessed curve passes through every observation *)
  (m1 * (g - x1) = m2 * (g - x2) -> m2 < m1 -> g <> x1 -> forall p, In p pts ->
     saturation (Fin (fst p)) (Fin x1) (Fin g) (Fin (m1 * (g - x1))) (Fin (turn m1 m2)) = Fin (snd p)) /\
  (** the guessed angle is the angle between the lines if that is less than a right angle *)
  (0 < 1 + m1 * m2 -> turn m1 m2 = atan m1 - atan m2).
Proof.
  intros pts g gs m1 x1 m2 x2 left right L1 L2 S1 S2 T1 T2 N1 N2 N.
  split; [|split].
  - unfold saturation_p0, real_obs. cbn [o_x o_y].
    rewrite (estimate_line_exact _ (fun a => Rleb a g) pts m1 x1); [|intros a; apply fin_leb|exact L1|exact S1|exact T1|exact N1].
    rewrite (estimate_line_exact _ (fun a => negb (Rleb a g)) pts m2 x2); [|intros a; rewrite fin_leb; reflexivity|exact L2|exact S2|exact T2|exact N2].
    rewrite !fin_sub, !fin_mul, fin_ofZ, fin_add, turn_fin by exact N.
    assert (M : forall a b, nanmedian [Fin a; Fin b] = Fin ((a + b) / 2)).
    { intros a b. unfold nanmedian. cbn [filter]. rewrite !fin_isnan. cbn [negb]. change [Fin a; Fin b] with (map Fin [a; b]).
      destruct (Rle_dec a b) as [L|L].
      - apply (proj1 (proj2 C54_median)) with (s := []) (t := []); [apply Permutation_refl|reflexivity|exact L|intros v []|intros v []].
      - replace ((a + b) / 2) with ((b + a) / 2) by field.
        apply (proj1 (proj2 C54_median)) with (s := []) (t := []); [apply perm_swap|reflexivity|lra|intros v []|intros v []]. }
    rewrite M. reflexivity.
  - intros E L NX p Ip. pose proof (C53_saturation (fst p) x1 g (m1 * (g - x1)) (turn m1 m2)) as C. cbv zeta in C.
    replace (m1 * (g - x1) / (g - x1)) with m1 in C by (field; lra). rewrite tan_turn in C by exact N.
    rewrite C by lra. f_equal. unfold bent. destruct (Rle_dec (fst p) g) as [LE|LE].
    + rewrite (T1 p) by (apply filter_In; split; [exact Ip|apply Rleb_true, LE]). ring.
    + rewrite (T2 p) by (apply filter_In; split; [exact Ip|apply negb_true_iff, Rleb_false; lra]). rewrite E. ring.
  - intros P. unfold turn. destruct (Req_EM_T (1 + m1 * m2) 0); [lra|].
    assert (C : 0 < cos (atan m1 - atan m2)).
    { rewrite cos_minus. replace (sin (atan m1)) with (m1 * cos (atan m1)) by (rewrite <- (tan_atan m1) at 1; unfold tan; field; apply cos_atan_nz).
      replace (sin (atan m2)) with (m2 * cos (atan m2)) by (rewrite <- (tan_atan m2) at 1; unfold tan; field; apply cos_atan_nz).
      replace (_ + _) with (cos (atan m1) * cos (atan m2) * (1 + m1 * m2)) by ring.
      pose proof (atan_bound m1). pose proof (atan_bound m2). repeat apply Rmult_lt_0_compat; try exact P; apply cos_gt_0; lra. }
    replace ((m1 - m2) / (1 + m1 * m2)) with (tan (atan m1 - atan m2)).
    + apply atan_tan. pose proof (atan_bound m1). pose proof (atan_bound m2).
      assert (BD : - PI < atan m1 - atan m2 < PI) by lra. set (d := atan m1 - atan m2) in *. clearbody d. pose proof PI_RGT_0.
      split; apply Rnot_le_lt; intros Q.
      * assert (cos d <= 0); [|lra]. rewrite <- cos_neg. apply cos_le_0; lra.
      * assert (cos d <= 0); [|lra]. apply cos_le_0; lra.
    + rewrite tan_minus; try apply cos_atan_nz; rewrite ?tan_atan; [reflexivity|lra|lra].
Qed.
Print Assumptions C187_guess.
(** For a sharper bend the guessed angle is a half turn off; and the user's level is not used. *)
Theorem C187_guess_refuted :
  (forall m1 m2, m2 < m1 -> 1 + m1 * m2 < 0 -> turn m1 m2 = atan m1 - atan m2 - PI) /\
  (forall g gs gs' pts, saturation_p0 (Fin g) gs (real_obs pts) = saturation_p0 (Fin g) gs' (real_obs pts)).
Proof.
  split; [|reflexivity]. intros m1 m2 L P. unfold turn. destruct (Req_EM_T (1 + m1 * m2) 0); [lra|].
  assert (C : cos (atan m1 - atan m2) < 0).
  { rewrite cos_minus. replace (sin (atan m1)) with (m1 * cos (atan m1)) by (rewrite <- (tan_atan m1) at 1; unfold tan; field; apply cos_atan_nz).
    replace (sin (atan m2)) with (m2 * cos (atan m2)) by (rewrite <- (tan_atan m2) at 1; unfold tan; field; apply cos_atan_nz).
    replace (_ + _) with (cos (atan m1) * cos (atan m2) * (1 + m1 * m2)) by ring.
    pose proof (atan_bound m1). pose proof (atan_bound m2). assert (0 < cos (atan m1)) by (apply cos_gt_0; lra). assert (0 < cos (atan m2)) by (apply cos_gt_0; lra).
    assert (0 < cos (atan m1) * cos (atan m2)) by (apply Rmult_lt_0_compat; assumption). nra. }
  replace ((m1 - m2) / (1 + m1 * m2)) with (tan (atan m1 - atan m2)).
  - apply atan_tan_shift. pose proof (atan_bound m1). pose proof (atan_bound m2). pose proof (atan_increasing _ _ L).
    assert (BD : 0 < atan m1 - atan m2 < PI) by lra. set (d := atan m1 - atan m2) in *. clearbody d. pose proof PI_RGT_0.
    split; [|lra]. apply Rnot_le_lt. intros Q. assert (0 <= cos d); [|lra]. apply cos_ge_0; lra.
  - rewrite tan_minus; try apply cos_atan_nz; rewrite ?tan_atan; [reflexivity|lra|lra].
Qed.
Print Assumptions C187_guess_refuted.
Example C187_ex : through 2 0 [(1, 2); (2, 4)] /\ through 1 (-2) [(3, 5); (4, 6)] /\ 2 * (2 - 0) = 1 * (2 - -2) /\ 0 < 1 + 2 * 1.
Proof. split; [|split]; [| |lra]; intros p [<-|[<-|[]]]; cbn; lra. Qed.

(* ================================================================ C188 *)
Lemma arr_mean_fin l : l <> [] -> arr_mean (map Fin l) = Fin (rmean l).
Proof.
  intros NE. unfold arr_mean. rewrite sum_strict_fin, map_length, fin_ofZ.
  assert (N : IZR (Z.of_nat (List.length l)) <> 0) by (apply not_0_IZR; destruct l; [contradiction|cbn; lia]).
  rewrite fin_div by exact N. unfold rmean. rewrite INR_IZR_INZ. reflexivity.
Qed.
Definition varied (pts : list (R * R)) : Prop := exists p q, In p pts /\ In q pts /\ fst p <> fst q.
Lemma varied_pos pts c : varied pts -> 0 < Rsum (map (fun p => (fst p - c) * (fst p - c)) pts).
Proof.
  intros (p & q & Ip & Iq & N).
  assert (NN : forall l : list (R * R), 0 <= Rsum (map (fun z => (fst z - c) * (fst z - c)) l)).
  { intros l. apply Rsum_nonneg. intros y Hy. apply in_map_iff in Hy. destruct Hy as (z & <- & _). apply Rle_0_sqr. }
  destruct (NN pts) as [P|P]; [exact P|exfalso].
  assert (Z : forall z, In z pts -> fst z = c).
  { clear - P NN. induction pts as [|a r IH]; [intros z []|]. cbn [map Rsum] in P. pose proof (NN r). pose proof (Rle_0_sqr (fst a - c)) as SQ. unfold Rsqr in SQ. assert (Q : (fst a - c) * (fst a - c) = 0) by lra. intros z [<-|Iz]; [destruct (Rmult_integral _ _ Q); lra|]. apply IH; [lra|exact Iz]. }
  apply N. rewrite (Z p Ip), (Z q Iq). reflexivity.
Qed.
Lemma Rsum_line m b pts : on_line m b pts -> Rsum (map snd pts) = m * Rsum (map fst pts) + INR (List.length pts) * b.
Proof.
  induction pts as [|p r IH]; intros L; [cbn; ring|]. cbn [map Rsum List.length]. rewrite S_INR, IH, (L p) by first [left; reflexivity|intros z Hz; apply L; right; exact Hz]. ring.
Qed.
Lemma ols_slope_exact m b pts : on_line m b pts -> varied pts -> ols_slope (xs_of pts) (ys_of pts) = Fin m.
Proof.
  intros L V. assert (NE : pts <> []) by (destruct V as (p & _ & I & _); intros E; rewrite E in I; contradiction).
  assert (NI : INR (List.length pts) <> 0) by (apply not_0_INR; destruct pts; [contradiction|discriminate]).
  unfold ols_slope. replace (xs_of pts) with (map Fin (map fst pts)) by (rewrite map_map; reflexivity). rewrite (ys_map pts).
  rewrite !arr_mean_fin by (destruct pts; [contradiction|discriminate]). cbv zeta. set (mx := rmean (map fst pts)). set (my := rmean (map snd pts)).
  assert (MY : my = m * mx + b).
  { unfold my, mx, rmean. rewrite (Rsum_line m b pts L), !map_length. field. exact NI. }
  clearbody mx my.
  assert (E1 : map2 (fun u v => amul (asub u (Fin mx)) (asub v (Fin my))) (map Fin (map fst pts)) (map Fin (map snd pts)) =
               map Fin (map (fun p => m * ((fst p - mx) * (fst p - mx))) pts)).
  { clear - L MY. induction pts as [|p r IH]; [reflexivity|]. cbn [map map2]. rewrite IH by (intros z Hz; apply L; right; exact Hz).
    rewrite !fin_sub, fin_mul, (L p), MY by (left; reflexivity). do 2 f_equal. ring. }
  assert (E2 : map (fun u => asq (asub u (Fin mx))) (map Fin (map fst pts)) = map Fin (map (fun p => (fst p - mx) * (fst p - mx)) pts)).
  { clear. induction pts as [|p r IH]; [reflexivity|]. cbn [map]. rewrite IH, fin_sub, fin_sq. reflexivity. }
  rewrite E1, E2, !sum_strict_fin, Rsum_map_scal. pose proof (varied_pos pts mx V). rewrite fin_div by lra. f_equal. field. lra.
Qed.
Lemma count_filter (p : XR -> bool) (q : R -> bool) pts : (forall a, p (Fin a) = q a) -> count p (xs_of pts) = List.length (filter (fun z => q (fst z)) pts).
Proof. intros H. unfold count. induction pts as [|z r IH]; [reflexivity|]. cbn [map filter]. rewrite H. destruct (q (fst z)); cbn [List.length]; rewrite IH; reflexivity. Qed.
Lemma steps_varied pts : (2 <= List.length pts)%nat -> steps_ok pts -> varied pts.
Proof.
  destruct pts as [|p [|q r]]; cbn [List.length]; intros L S; [lia|lia|]. destruct S as [N _]. exists q, p. split; [right; left; reflexivity|]. split; [left; reflexivity|exact N].
Qed.
(** Data on a rise through (xh, yh) followed by a line from there: the guess gives back exactly these two lines,
    and with it the curve passes through every observation. *)
Theorem C188_guess :
  forall xh yh pts m1 m2,
  let rise := filter (fun z => Rltb (fst z) xh) pts in
  let rest := filter (fun z => Rleb xh (fst z)) pts in
  varied rise -> (2 <= List.length rest)%nat -> steps_ok rest ->
  (forall p, In p rise -> snd p = yh + m1 * (fst p - xh)) -> (forall p, In p rest -> snd p = yh + m2 * (fst p - xh)) ->
  1 / 10000000000 < Rabs m1 ->
  hinge_saturation_p0 (Fin xh) (Fin yh) (real_obs pts) = Ok (Some [Fin xh; Fin yh; Fin (xh - yh / m1); Fin m2]) /\
  (yh <> 0 -> 1 / 1000000000000000 < Rabs m2 \/ m2 = 0 -> m2 <= m1 -> forall p, In p pts ->
   hinge_saturation (Fin (fst p)) (Fin xh) (Fin yh) (Fin (xh - yh / m1)) (Fin m2) = Fin (snd p)).
Proof.
  intros xh yh pts m1 m2 rise rest V LEN ST H1 H2 B.
  assert (N1 : m1 <> 0) by (intros ->; rewrite Rabs_R0 in B; lra).
  assert (A : forall a, ageb (Fin a) (Fin xh) = Rleb xh a) by (intros a; unfold ageb; apply fin_leb).
  assert (LB : (2 <= List.length rise)%nat).
  { destruct V as (p & q & Ip & Iq & N). destruct rise as [|a [|b r]]; [contradiction| |cbn; lia]. destruct Ip as [<-|[]], Iq as [<-|[]]. contradiction. }
  split.
  - unfold hinge_saturation_p0, real_obs. cbn [o_x o_y]. cbv zeta.
    rewrite (count_filter _ (fun a => Rltb a xh)), (count_filter _ (fun a => Rleb xh a)) by first [intros a; apply fin_ltb|exact A].
    fold rise rest. rewrite (proj2 (Nat.leb_le 2 _) LB), (proj2 (Nat.leb_le 2 _) LEN).
    rewrite (pick_fin _ (fun a => Rltb a xh) pts fst), (pick_fin _ (fun a => Rltb a xh) pts snd) by (intros a; apply fin_ltb).
    rewrite (pick_fin _ (fun a => Rleb xh a) pts fst), (pick_fin _ (fun a => Rleb xh a) pts snd) by exact A. fold rise rest.
    rewrite (ols_slope_exact m1 (yh - m1 * xh) rise); [|intros z Hz; rewrite (H1 z Hz); ring|exact V].
    unfold agtb. rewrite fin_ofQ, fin_abs, fin_ltb, (proj2 (Rltb_true _ _) B), fin_div, fin_sub by exact N1. cbn [bind].
    destruct (slopes_const m2 (yh - m2 * xh) rest ST) as [C1 C2]; [intros z Hz; rewrite (H2 z Hz); ring|].
    rewrite (median_const _ m2); [reflexivity| |exact C1]. intros E. rewrite E in C2. cbn in C2. lia.
  - intros NY SM LE p Ip. assert (NX : xh <> xh - yh / m1).
    { intros E. assert (Z : yh / m1 = 0) by lra. apply NY. replace yh with (yh / m1 * m1) by (field; exact N1). rewrite Z. ring. }
    assert (Q : yh / (xh - (xh - yh / m1)) = m1) by (replace (xh - (xh - yh / m1)) with (yh / m1) by ring; field; split; assumption).
    assert (ES : effective_slope m2 = m2).
    { unfold effective_slope. destruct (Rlt_dec (1 / 1000000000000000) (Rabs m2)) as [|NL]; [reflexivity|]. destruct SM as [SM| ->]; [contradiction|reflexivity]. }
    rewrite C53_hinge_saturation by (rewrite ?Q, ?ES; assumption). rewrite Q, ES. f_equal. unfold bent.
    destruct (Rle_dec (fst p) xh) as [L|L].
    + destruct (Req_EM_T (fst p) xh) as [E|E].
      * rewrite (H2 p) by (apply filter_In; split; [exact Ip|apply Rleb_true; lra]). rewrite E. ring.
      * rewrite (H1 p) by (apply filter_In; split; [exact Ip|apply Rltb_true; lra]). reflexivity.
    + rewrite (H2 p) by (apply filter_In; split; [exact Ip|apply Rleb_true; lra]). reflexivity.
Qed.
Print Assumptions C188_guess.
(** With a rise of at most 1e-10 per unit (small units of y, large units of x) the intercept of the rise is replaced by
    the smallest x, and with no two points on a side likewise, or the second line is taken flat. *)
Theorem C188_shallow_rise_refuted :
  forall xh yh pts m1, let rise := filter (fun z => Rltb (fst z) xh) pts in
  varied rise -> (forall p, In p rise -> snd p = yh + m1 * (fst p - xh)) -> Rabs m1 <= 1 / 10000000000 ->
  exists lo m2, hinge_saturation_p0 (Fin xh) (Fin yh) (real_obs pts) = Ok (Some [Fin xh; Fin yh; Fin lo; m2]) /\
    In lo (map fst pts) /\ (forall p, In p pts -> lo <= fst p).
Proof.
  intros xh yh pts m1 rise V H1 B.
  assert (LB : (2 <= List.length rise)%nat).
  { destruct V as (p & q & Ip & Iq & N). destruct rise as [|a [|b r]]; [contradiction| |cbn; lia]. destruct Ip as [<-|[]], Iq as [<-|[]]. contradiction. }
  assert (NE : map fst pts <> []).
  { destruct V as (p & _ & Ip & _). apply filter_In in Ip. destruct pts; [destruct Ip; contradiction|discriminate]. }
  destruct (arr_min_fin (map fst pts) NE) as (lo & E & M).
  exists lo. unfold hinge_saturation_p0, real_obs. cbn [o_x o_y]. cbv zeta.
  rewrite (count_filter _ (fun a => Rltb a xh)) by (intros a; apply fin_ltb). fold rise. rewrite (proj2 (Nat.leb_le 2 _) LB).
  rewrite (pick_fin _ (fun a => Rltb a xh) pts fst), (pick_fin _ (fun a => Rltb a xh) pts snd) by (intros a; apply fin_ltb). fold rise.
  rewrite (ols_slope_exact m1 (yh - m1 * xh) rise); [|intros z Hz; rewrite (H1 z Hz); ring|exact V].
  unfold agtb at 1. rewrite fin_ofQ, fin_abs, fin_ltb, (proj2 (Rltb_false _ _) B).
  rewrite map_map in E. rewrite E. cbn [bind].
  eexists. split; [reflexivity|]. destruct M as [M1 M2]. split; [exact M1|]. intros p Ip. apply M2, in_map, Ip.
Qed.
Print Assumptions C188_shallow_rise_refuted.
Example C188_ex : varied [(1, 2); (2, 4)] /\ steps_ok [(3, 6); (4, 7)] /\ 1 / 10000000000 < Rabs 2.
Proof.
  split; [exists (1, 2), (2, 4); cbn; split; [auto|split; [auto|lra]]|]. split; [cbn; split; [lra|exact Logic.I]|]. rewrite Rabs_right; lra.
Qed.

(* ================================================================ C189 *)
(** The parameters of the remaining models are named after their role in the curve. *)
Theorem C189_named_parameters :
  forall x : R,
  (forall x0 y0 y1 mu sigma a, sigma <> 0 -> x <> x0 ->
     curve_at GaussianPlusHeavySide [("x0", x0); ("y0", y0); ("y1", y1); ("mu", mu); ("sigma", sigma); ("A", a)] x
       (a * exp (- ((x - mu) / sigma) ^ 2 / 2) + (if Rlt_dec x x0 then y1 else 0) + y0)) /\
  (forall g c x0 mu sigma a, sigma <> 0 -> GaussianTimesHeavySide (Some g) = Ok c ->
     curve_at c [("x0", x0); ("mu", mu); ("sigma", sigma); ("A", a)] x (if Rlt_dec x x0 then 0 else a * exp (- ((x - mu) / sigma) ^ 2 / 2))) /\
  (forall g c x0 y1 mu sigma a, sigma <> 0 -> x <> x0 -> GaussianTimesHeavySidePlusHeavySide (Some g) = Ok c ->
     curve_at c [("x0", x0); ("y1", y1); ("mu", mu); ("sigma", sigma); ("A", a)] x
       (if Rlt_dec x x0 then y1 else a * exp (- ((x - mu) / sigma) ^ 2 / 2))) /\
  (forall gx gy xh yh x1 m2, xh <> x1 -> 1 / 1000000000000000 < Rabs m2 ->
     curve_at (HingeSaturation gx gy) [("xh", xh); ("yh", yh); ("x1", x1); ("m2", m2)] x (Rmin (yh / (xh - x1) * (x - x1)) (yh + m2 * (x - xh)))) /\
  (forall gx gs x1 xs s theta, xs <> x1 -> tan (atan (s / (xs - x1)) - theta) <> 0 ->
     curve_at (Saturation gx gs) [("x1", x1); ("xs", xs); ("s", s); ("theta", theta)] x
       (Rmin (s / (xs - x1) * (x - x1)) (s + tan (atan (s / (xs - x1)) - theta) * (x - xs)))) /\
  (forall g m1 x1 x2 h, h <> x2 -> curve_at (HingeMax g) [("m1", m1); ("x1", x1); ("x2", x2); ("h", h)] x
     (Rmax (m1 * (x - x1)) (m1 * (h - x1) / (h - x2) * (x - x2)))) /\
  (forall c a d, curve_at ExponentialPlusC [("c", c); ("A", a); ("d", d)] x (a * exp (- (c * x)) + d)) /\
  (forall y0 c, curve_at (ExponentialCDF (Some (Fin y0))) [("c", c)] x (y0 * (1 - exp (- (c * x))))) /\
  (forall a b c, 0 < x -> curve_at PowerLawPlusC [("A", a); ("b", b); ("c", c)] x (a * Rpower x b + c)) /\
  (forall a b x0, x0 < x -> curve_at PowerLawOffCenter [("A", a); ("b", b); ("x0", x0)] x (a * Rpower (x - x0) b)).
Proof.
  intro x. unfold curve_at.
  split; [|split; [|split; [|split; [|split; [|split; [|split; [|split; [|split]]]]]]]].
  - intros. split; [reflexivity|]. cbn [map GaussianPlusHeavySide c_fun ap6 snd]. unfold gaussian_plus_heavy_side. rewrite gaussian_fin, fin_sub by assumption.
    unfold bell. destruct (Rlt_dec x x0).
    + rewrite hs_pos by lra. rewrite fin_mul, !fin_add. f_equal. ring.
    + rewrite hs_neg by lra. rewrite fin_mul, !fin_add. f_equal. ring.
  - intros g c x0 mu sigma a NS H. apply ok_eq in H. subst c. split; [reflexivity|]. cbn [map c_fun ap4 snd]. unfold gaussian_times_heavy_side.
    rewrite gaussian_fin, fin_sub by assumption. unfold bell. destruct (Rlt_dec x x0).
    + rewrite hs_neg by lra. rewrite fin_mul. f_equal. ring.
    + destruct (Req_EM_T x x0) as [->|N]; [rewrite (Rminus_diag_eq x0 x0), hs_zero, fin_ofZ by reflexivity|rewrite hs_pos by lra]; rewrite fin_mul; f_equal; ring.
  - intros g c x0 y1 mu sigma a NS NX H. apply ok_eq in H. subst c. split; [reflexivity|]. cbn [map c_fun ap5 snd]. unfold gaussian_times_plus_heavy_side.
    rewrite gaussian_fin, !fin_sub by assumption. unfold bell. destruct (Rlt_dec x x0).
    + rewrite hs_neg, hs_pos by lra. rewrite !fin_mul, fin_add. f_equal. ring.
    + rewrite hs_pos, hs_neg by lra. rewrite !fin_mul, fin_add. f_equal. ring.
  - intros gx gy xh yh x1 m2 NX B. split; [reflexivity|]. cbn [map HingeSaturation c_fun ap4 snd]. unfold hinge_saturation.
    assert (N2 : m2 <> 0) by (intros ->; rewrite Rabs_R0 in B; lra).
    unfold agtb, tiny. rewrite fin_ofQ, fin_abs, fin_ltb, (proj2 (Rltb_true _ _) B). rewrite (fin_sub xh x1), fin_div by lra. rewrite fin_div, !fin_sub, !fin_mul, fin_min by exact N2.
    f_equal. f_equal. field. exact N2.
  - intros gx gs x1 xs s theta NX NT. split; [reflexivity|]. cbn [map Saturation c_fun ap4 snd]. unfold saturation. cbv zeta.
    rewrite (fin_sub xs x1), fin_div by lra. rewrite fin_atan, (fin_sub (atan _)), fin_tan. rewrite fin_div, !fin_sub, !fin_mul, fin_min by exact NT.
    f_equal. f_equal. field. exact NT.
  - intros g m1 x1 x2 h N. split; [reflexivity|]. cbn [map HingeMax c_fun ap4 snd]. unfold hinge_max, hinge_m2. rewrite !fin_sub, !fin_mul, fin_div, fin_mul, fin_max by lra. reflexivity.
  - intros. split; [reflexivity|]. cbn [map ExponentialPlusC c_fun ap3 snd]. unfold exponential_plus_c. rewrite fin_mul, fin_opp, fin_exp, fin_mul, fin_add. reflexivity.
  - intros. split; [reflexivity|]. cbn [map ExponentialCDF c_fun ap1 snd]. unfold exponential_cdf. rewrite fin_mul, fin_opp, fin_exp, fin_ofZ, fin_sub, fin_mul. reflexivity.
  - intros a b c P. split; [reflexivity|]. cbn [map PowerLawPlusC c_fun ap3 snd]. unfold power_law_plus_c. rewrite fin_pow, fin_mul, fin_add by exact P. reflexivity.
  - intros a b x0 P. split; [reflexivity|]. cbn [map PowerLawOffCenter c_fun ap3 snd]. unfold power_law_off_center. rewrite fin_sub, fin_pow, fin_mul by lra. reflexivity.
Qed.
Print Assumptions C189_named_parameters.
(** Their guesses start from the largest observation, or from the plain power law; always within the model's domain. *)
Theorem C189_guesses :
  forall pts, pts <> [] -> exists peak, is_max peak (map snd pts) /\
  c_p0 ExponentialPlusC (real_obs pts) = Ok (Some [Fin 1; Fin peak; Fin 0]) /\
  c_p0 Exponential (real_obs pts) = Ok (Some [Fin 1; Fin peak]) /\
  (forall y0, c_p0 (ExponentialCDF y0) (real_obs pts) = Ok (Some [Fin (rmean (map snd pts))])) /\
  c_p0 PowerLawPlusC (real_obs pts) = Ok (Some [Fin 1; Fin 1; Fin 0]) /\ c_p0 PowerLawOffCenter (real_obs pts) = Ok (Some [Fin 1; Fin 1; Fin 0]) /\
  (forall x, 0 < x -> exists y, power_law_plus_c (Fin x) (Fin 1) (Fin 1) (Fin 0) = Fin y /\ y = x /\
     power_law_off_center (Fin x) (Fin 1) (Fin 1) (Fin 0) = Fin x).
Proof.
  intros pts NE. destruct (arr_max_fin (map snd pts)) as (v & E & M); [destruct pts; [contradiction|discriminate]|]. exists v. split; [exact M|].
  rewrite <- ys_map in E. cbn [c_p0 ExponentialPlusC Exponential ExponentialCDF PowerLawPlusC PowerLawOffCenter]. unfold exponential_p0, real_obs. cbn [o_y]. rewrite E. cbn [rmap]. rewrite !fin_ofZ.
  split; [reflexivity|]. split; [reflexivity|]. split; [intros _; rewrite (ys_map pts), arr_mean_fin by (destruct pts; [contradiction|discriminate]); reflexivity|].
  split; [reflexivity|]. split; [reflexivity|]. intros x P. exists x. unfold power_law_plus_c, power_law_off_center.
  rewrite fin_sub, !fin_pow, !fin_mul, fin_add by lra. rewrite Rminus_0_r, Rpower_1 by exact P. split; [f_equal; ring|]. split; [reflexivity|f_equal; ring].
Qed.
Print Assumptions C189_guesses.
Example C189_ex : curve_at PowerLawOffCenter [("A", 3); ("b", 2); ("x0", 1)] 4 (3 * Rpower (4 - 1) 2) /\ [(1, 2)] <> @nil (R * R).
Proof. split; [apply C189_named_parameters; lra|discriminate]. Qed.

(* ================================================================ C190 *)
Definition ent (i : nat) (v : list R) : R := nth i v 0.
Definition sumn (n : nat) (f : nat -> R) : R := Rsum (map f (seq 0 n)).
Definition kron (i j : nat) (c : R) : R := if Nat.eqb i j then c else 0.
(** The normal matrix of a Jacobian given by its rows. *)
Definition gram (J : list (list R)) (i j : nat) : R := Rsum (map (fun r => ent i r * ent j r) J).
(** Singular values with their right singular vectors: the vectors are an orthonormal basis of the parameter space, the
    values are not negative, and J^T J is the sum of s^2 v v^T. *)
Record decomposes (J : list (list R)) (n : nat) (V : list (R * list R)) : Prop := mkDec {
  d_count : List.length V = n;
  d_length : forall p, In p V -> List.length (snd p) = n;
  d_nonneg : forall p, In p V -> 0 <= fst p;
  d_rows : forall k l, (k < n)%nat -> (l < n)%nat ->
     sumn n (fun i => ent i (snd (nth k V (0, []))) * ent i (snd (nth l V (0, [])))) = kron k l 1;
  d_cols : forall i j, (i < n)%nat -> (j < n)%nat -> Rsum (map (fun p => ent i (snd p) * ent j (snd p)) V) = kron i j 1;
  d_gram : forall i j, (i < n)%nat -> (j < n)%nat -> gram J i j = Rsum (map (fun p => (fst p) ^ 2 * (ent i (snd p) * ent j (snd p))) V) }.
Definition xsvd (V : list (R * list R)) : svd (T := XR) := map (fun p => (Fin (fst p), map Fin (snd p))) V.
Lemma Rsum_index {X} (f : X -> R) (l : list X) d : Rsum (map f l) = sumn (List.length l) (fun k => f (nth k l d)).
Proof.
  unfold sumn. f_equal. induction l as [|a l IH]; [reflexivity|]. cbn [List.length seq map nth]. f_equal. rewrite IH, <- seq_shift, map_map. reflexivity.
Qed.
Lemma sumn_ext n f g : (forall i, (i < n)%nat -> f i = g i) -> sumn n f = sumn n g.
Proof. intros H. unfold sumn. f_equal. apply map_ext_in. intros i Hi. apply in_seq in Hi. apply H. lia. Qed.
Lemma sumn_S n f : sumn (S n) f = sumn n f + f n.
Proof. unfold sumn. rewrite seq_S, map_app, Rsum_app. cbn [map Rsum]. replace (0 + n)%nat with n by lia. ring. Qed.
Lemma sumn_scal n c f : sumn n (fun i => c * f i) = c * sumn n f.
Proof. apply Rsum_map_scal. Qed.
Lemma sumn_swap n m (f : nat -> nat -> R) : sumn n (fun i => sumn m (fun j => f i j)) = sumn m (fun j => sumn n (fun i => f i j)).
Proof.
  induction n as [|n IH].
  - unfold sumn at 1. cbn. symmetry. induction m as [|m IHm]; [reflexivity|]. rewrite sumn_S, IHm. unfold sumn. cbn. ring.
  - rewrite sumn_S, IH. clear IH. induction m as [|m IHm]; [unfold sumn; cbn; ring|]. rewrite !sumn_S, <- IHm. ring.
Qed.
Lemma sumn_prod n q a b : sumn n a * q * sumn n b = sumn n (fun k => sumn n (fun m => a k * q * b m)).
Proof.
  symmetry. transitivity (sumn n (fun k => sumn n b * q * a k)); [apply sumn_ext|].
  - intros k _. rewrite (sumn_scal n (a k * q) b). ring.
  - rewrite (sumn_scal n (sumn n b * q) a). ring.
Qed.
Lemma sumn_kron n k f : (k < n)%nat -> sumn n (fun j => f j * kron k j 1) = f k.
Proof.
  assert (Z : forall m, (m <= k)%nat -> sumn m (fun j => f j * kron k j 1) = 0).
  { induction m as [|m IH]; intros L; [reflexivity|]. rewrite sumn_S, IH by lia. unfold kron. rewrite (proj2 (Nat.eqb_neq k m)) by lia. ring. }
  induction n as [|n IH]; intros L; [lia|]. rewrite sumn_S. destruct (Nat.eq_dec k n) as [->|N].
  - rewrite Z by lia. unfold kron. rewrite Nat.eqb_refl. ring.
  - rewrite IH by lia. unfold kron. rewrite (proj2 (Nat.eqb_neq k n)) by exact N. ring.
Qed.
Lemma ent_fin i v : (i < List.length v)%nat -> nth i (map Fin v) (anan : XR) = Fin (ent i v).
Proof. intros L. rewrite (nth_indep _ _ (Fin 0)) by (rewrite map_length; exact L). exact (map_nth Fin v 0 i). Qed.
Definition rinv (V : list (R * list R)) (i j : nat) : R := Rsum (map (fun p => ent i (snd p) / (fst p) ^ 2 * ent j (snd p)) V).
Lemma pinv_fin V n i j : (i < n)%nat -> (j < n)%nat -> (forall p, In p V -> List.length (snd p) = n /\ fst p <> 0) ->
  pinv (xsvd V) i j = Fin (rinv V i j).
Proof.
  intros Li Lj H. unfold pinv, rinv, xsvd. rewrite map_map. rewrite <- sum_strict_fin, map_map. f_equal. apply map_ext_in. intros p Ip. cbn [fst snd].
  destruct (H p Ip) as [LE NZ]. rewrite !ent_fin by (rewrite LE; assumption). rewrite fin_sq, fin_div, fin_mul by nra. do 2 f_equal. replace (fst p ^ 2) with (fst p * fst p) by ring. reflexivity.
Qed.
Definition head_value (V : list (R * list R)) : R := match V with [] => 0 | p :: _ => fst p end.
Lemma kept_fin eps big V : kept (Fin eps) (Fin big) (xsvd V) = xsvd (filter (fun p => Rltb (eps * big * head_value V) (fst p)) V).
Proof.
  destruct V as [|q r]; [reflexivity|].
  assert (G : forall l t, filter (fun p : XR * list XR => agtb (fst p) (Fin t)) (xsvd l) = xsvd (filter (fun p => Rltb t (fst p)) l)).
  { intros l t. induction l as [|p l IH]; [reflexivity|]. unfold xsvd in *. cbn [map filter fst]. rewrite IH. unfold agtb at 1. rewrite fin_ltb.
    destruct (Rltb t (fst p)); reflexivity. }
  rewrite <- G. unfold kept. unfold xsvd at 1. cbn [map]. change ((Fin (fst q), map Fin (snd q)) :: map (fun p => (Fin (fst p), map Fin (snd p))) r) with (xsvd (q :: r)).
  cbn [fst head_value]. rewrite !fin_mul. reflexivity.
Qed.
Lemma scale_fin cost y n : (n < y)%nat -> scale_sq (Fin cost) y n = Some (Fin (2 * cost / INR (y - n))).
Proof.
  intros L. unfold scale_sq. rewrite (proj2 (Nat.ltb_lt n y) L), !fin_ofZ, fin_mul.
  rewrite fin_div by (apply not_0_IZR; lia). rewrite <- INR_IZR_INZ. reflexivity.
Qed.
(** With more observations than parameters and no negligible singular value, the covariance is the inverse of the normal
    matrix times twice the cost per degree of freedom, and the uncertainties are the roots of its diagonal. *)
Theorem C190_covariance_partial :
  forall J n V eps big cost y, decomposes J n V -> 0 <= eps -> 0 <= big -> 0 <= cost -> (n < y)%nat ->
  (forall p, In p V -> eps * big * head_value V < fst p) ->
  exists cov : nat -> nat -> R,
  (forall i j, (i < n)%nat -> (j < n)%nat -> pcov PInf (Fin eps) (Fin big) (Fin cost) y n (xsvd V) i j = Fin (cov i j)) /\
  (forall i j, (i < n)%nat -> (j < n)%nat -> sumn n (fun l => cov i l * gram J l j) = kron i j (2 * cost / INR (y - n))) /\
  (forall i j, cov i j = cov j i) /\ (forall i, 0 <= cov i i) /\
  psigma PInf (Fin eps) (Fin big) (Fin cost) y n (xsvd V) = map (fun i => Fin (sqrt (cov i i))) (seq 0 n).
Proof.
  intros J n V eps big cost y D PE PB PC LY W.
  assert (H0 : 0 <= head_value V).
  { destruct V as [|p r]; cbn; [lra|]. apply (d_nonneg _ _ _ D). left. reflexivity. }
  assert (T0 : 0 <= eps * big * head_value V) by (repeat apply Rmult_le_pos; assumption).
  assert (NZ : forall p, In p V -> fst p <> 0) by (intros p Ip; specialize (W p Ip); lra).
  assert (Q : 0 <= 2 * cost / INR (y - n)).
  { apply Rmult_le_pos; [lra|]. left. apply Rinv_0_lt_compat, lt_0_INR. lia. }
  set (q := 2 * cost / INR (y - n)) in *. exists (fun i j => rinv V i j * q).
  assert (PV : forall i j, (i < n)%nat -> (j < n)%nat -> pcov PInf (Fin eps) (Fin big) (Fin cost) y n (xsvd V) i j = Fin (rinv V i j * q)).
  { intros i j Li Lj. unfold pcov. rewrite scale_fin by exact LY. fold q. rewrite kept_fin.
    replace (filter (fun p => Rltb (eps * big * head_value V) (fst p)) V) with V.
    - rewrite (pinv_fin V n i j Li Lj) by (intros p Ip; split; [apply (d_length _ _ _ D), Ip|apply NZ, Ip]). apply fin_mul.
    - symmetry. clear - W. revert W. generalize (eps * big * head_value V). intros t W. induction V as [|p r IH]; [reflexivity|]. cbn [filter].
      rewrite (proj2 (Rltb_true t (fst p))) by (apply W; left; reflexivity). f_equal. apply IH. intros z Hz. apply W. right. exact Hz. }
  assert (DG : forall i, 0 <= rinv V i i * q).
  { intros i. apply Rmult_le_pos; [|exact Q]. apply Rsum_nonneg. intros z Hz. apply in_map_iff in Hz. destruct Hz as (p & <- & Ip).
    replace (ent i (snd p) / fst p ^ 2 * ent i (snd p)) with ((ent i (snd p) / fst p) ^ 2) by (field; apply NZ, Ip). apply pow2_ge_0. }
  split; [exact PV|]. split; [|split; [|split; [exact DG|]]].
  - intros i j Li Lj. pose proof (d_count _ _ _ D) as CN.
    set (v := fun k i => ent i (snd (nth k V (0, [])))). set (s := fun k => fst (nth k V (0, []))).
    assert (NS : forall k, (k < n)%nat -> s k <> 0) by (intros k L; apply NZ, nth_In; rewrite CN; exact L).
    assert (E : forall l, (l < n)%nat -> rinv V i l * q * gram J l j =
      sumn n (fun k => sumn n (fun m => q * (v k i / s k ^ 2) * (s m ^ 2 * v m j) * (v k l * v m l)))).
    { intros l Ll. rewrite (d_gram _ _ _ D l j Ll Lj). unfold rinv. rewrite !(Rsum_index _ V (0, [])), CN.
      rewrite sumn_prod. apply sumn_ext. intros k Lk. apply sumn_ext. intros m Lm. unfold v, s. unfold Rdiv. ring. }
    rewrite (sumn_ext n _ _ E), (sumn_swap n n).
    rewrite (sumn_ext n _ (fun k => q * (v k i * v k j))).
    2: { intros k Lk. rewrite (sumn_swap n n). rewrite (sumn_ext n _ (fun m => q * (v k i / s k ^ 2) * (s m ^ 2 * v m j) * kron k m 1)).
         - rewrite (sumn_kron n k (fun m => q * (v k i / s k ^ 2) * (s m ^ 2 * v m j)) Lk). field. apply NS, Lk.
         - intros m Lm. rewrite sumn_scal. f_equal. exact (d_rows _ _ _ D k m Lk Lm). }
    rewrite sumn_scal. pose proof (d_cols _ _ _ D i j Li Lj) as C. rewrite (Rsum_index _ V (0, [])), CN in C. unfold v. rewrite C. unfold kron. destruct (Nat.eqb i j); ring.
  - intros i j. f_equal. unfold rinv. f_equal. apply map_ext. intros p. unfold Rdiv. ring.
  - unfold psigma. apply map_ext_in. intros i Hi. apply in_seq in Hi. rewrite PV by lia. rewrite fin_sqrt by apply DG. reflexivity.
Qed.
Print Assumptions C190_covariance_partial.
(** With no more observations than parameters every uncertainty is infinite, whatever the Jacobian. *)
Theorem C190_no_degrees_of_freedom :
  forall eps big cost y n sv, (y <= n)%nat ->
  psigma (T := XR) PInf eps big cost y n sv = repeat PInf n /\ (forall i j, pcov PInf eps big cost y n sv i j = PInf).
Proof.
  intros eps big cost y n sv L.
  assert (E : forall i j, pcov PInf eps big cost y n sv i j = PInf).
  { intros i j. unfold pcov, scale_sq. rewrite (proj2 (Nat.ltb_ge n y) L). reflexivity. }
  split; [|exact E]. unfold psigma. transitivity (map (fun _ : nat => PInf) (seq 0 n)).
  - apply map_ext. intros i. rewrite E. reflexivity.
  - generalize 0%nat. induction n as [|n IH]; intros k; [reflexivity|]. cbn [seq map repeat]. f_equal. clear -n. revert k. induction n as [|n IH]; intros k; [reflexivity|]. cbn. f_equal. apply IH.
Qed.
Print Assumptions C190_no_degrees_of_freedom.
(** But a parameter on which no observation depends is reported with an uncertainty of zero. *)
Theorem C190_undetermined_parameter_refuted :
  forall J n V eps big cost y i, decomposes J n V -> 0 <= eps -> 0 <= big -> 0 <= cost -> (n < y)%nat -> (i < n)%nat ->
  (forall r, In r J -> ent i r = 0) ->
  nth_error (psigma PInf (Fin eps) (Fin big) (Fin cost) y n (xsvd V)) i = Some (Fin 0).
Proof.
  intros J n V eps big cost y i D PE PB PC LY Li Z.
  assert (H0 : 0 <= head_value V).
  { destruct V as [|p r]; cbn; [lra|]. apply (d_nonneg _ _ _ D). left. reflexivity. }
  assert (T0 : 0 <= eps * big * head_value V) by (repeat apply Rmult_le_pos; assumption).
  assert (G : gram J i i = 0).
  { unfold gram. clear - Z. induction J as [|r J IH]; [reflexivity|]. cbn [map Rsum]. rewrite IH, (Z r) by first [left; reflexivity|intros w Hw; apply Z; right; exact Hw]. ring. }
  rewrite (d_gram _ _ _ D i i Li Li) in G.
  assert (VZ : forall p, In p V -> 0 < fst p -> ent i (snd p) = 0).
  { assert (NN : forall l, 0 <= Rsum (map (fun p : R * list R => fst p ^ 2 * (ent i (snd p) * ent i (snd p))) l)).
    { intros l. apply Rsum_nonneg. intros w Hw. apply in_map_iff in Hw. destruct Hw as (p & <- & _). apply Rmult_le_pos; [apply pow2_ge_0|apply Rle_0_sqr]. }
    clear - G NN. induction V as [|p r IH]; [intros p []|]. cbn [map Rsum] in G. pose proof (NN r) as N1.
    assert (N2 : 0 <= fst p ^ 2 * (ent i (snd p) * ent i (snd p))) by (apply Rmult_le_pos; [apply pow2_ge_0|apply Rle_0_sqr]).
    intros w [<-|Iw] P; [|apply IH; [lra|exact Iw|exact P]].
    assert (E : fst p ^ 2 * (ent i (snd p) * ent i (snd p)) = 0) by lra. destruct (Rmult_integral _ _ E) as [E1|E1].
    - assert (0 < fst p ^ 2) by (apply pow_lt, P). lra.
    - destruct (Rmult_integral _ _ E1); assumption. }
  unfold psigma. rewrite (map_nth_error _ i (seq 0 n) (d := i)).
  2: { rewrite (nth_error_nth' _ 0%nat) by (rewrite seq_length; exact Li). rewrite seq_nth by exact Li. reflexivity. }
  f_equal. unfold pcov. rewrite scale_fin by exact LY. rewrite kept_fin. set (K := filter _ V).
  assert (KP : forall p, In p K -> In p V /\ 0 < fst p).
  { intros p Ip. apply filter_In in Ip. destruct Ip as [I1 I2]. apply Rltb_true in I2. split; [exact I1|lra]. }
  rewrite (pinv_fin K n i i Li Li).
  2: { intros p Ip. destruct (KP p Ip) as [I1 I2]. split; [apply (d_length _ _ _ D), I1|lra]. }
  assert (R0 : rinv K i i = 0).
  { unfold rinv. clear - KP VZ. induction K as [|p r IH]; [reflexivity|]. cbn [map Rsum]. destruct (KP p (or_introl eq_refl)) as [I1 I2].
    rewrite IH, (VZ p I1 I2) by (intros w Hw; apply KP; right; exact Hw). unfold Rdiv. ring. }
  rewrite R0, fin_mul, Rmult_0_l, fin_sqrt, sqrt_0 by lra. reflexivity.
Qed.
Print Assumptions C190_undetermined_parameter_refuted.
(** A Jacobian of three observations and two parameters, of which the second has no effect. *)
Example C190_ex : decomposes [[1; 0]; [2; 0]; [2; 0]] 2 [(3, [1; 0]); (0, [0; 1])] /\ (forall r, In r [[1; 0]; [2; 0]; [2; 0]] -> ent 1 r = 0) /\
  decomposes [[1; 0]; [0; 2]; [0; 0]] 2 [(2, [0; 1]); (1, [1; 0])].
Proof.
  assert (I2 : forall i, (i < 2)%nat -> i = 0%nat \/ i = 1%nat) by (intros; lia).
  split; [|split].
  - split; [reflexivity| | | | |].
    + intros p [<-|[<-|[]]]; reflexivity.
    + intros p [<-|[<-|[]]]; cbn; lra.
    + intros k l Hk Hl. destruct (I2 k Hk) as [-> | ->], (I2 l Hl) as [-> | ->]; unfold sumn, kron, ent; cbn; ring.
    + intros k l Hk Hl. destruct (I2 k Hk) as [-> | ->], (I2 l Hl) as [-> | ->]; unfold kron, ent; cbn; ring.
    + intros k l Hk Hl. destruct (I2 k Hk) as [-> | ->], (I2 l Hl) as [-> | ->]; unfold gram, ent; cbn; ring.
  - intros r [<-|[<-|[<-|[]]]]; reflexivity.
  - split; [reflexivity| | | | |].
    + intros p [<-|[<-|[]]]; reflexivity.
    + intros p [<-|[<-|[]]]; cbn; lra.
    + intros k l Hk Hl. destruct (I2 k Hk) as [-> | ->], (I2 l Hl) as [-> | ->]; unfold sumn, kron, ent; cbn; ring.
    + intros k l Hk Hl. destruct (I2 k Hk) as [-> | ->], (I2 l Hl) as [-> | ->]; unfold kron, ent; cbn; ring.
    + intros k l Hk Hl. destruct (I2 k Hk) as [-> | ->], (I2 l Hl) as [-> | ->]; unfold gram, ent; cbn; ring.
Qed.

(* ================================================================ C191 *)
Definition rhuber (z : R) : R := if Rle_dec z 1 then z else 2 * sqrt z - 1.
Lemma huber_fin z : 0 <= z -> huber (Fin z) = Fin (rhuber z).
Proof.
  intros P. unfold huber, rhuber. rewrite !fin_ofZ, fin_leb. unfold Rleb. destruct (Rle_dec z 1); [reflexivity|]. rewrite fin_sqrt, fin_mul, fin_sub by exact P. reflexivity.
Qed.
Lemma rhuber_le z : 0 <= z -> 0 <= rhuber z <= z /\ (rhuber z = z <-> z <= 1).
Proof.
  intros P. unfold rhuber. destruct (Rle_dec z 1) as [L|L]; [split; [lra|tauto]|]. apply Rnot_le_lt in L.
  assert (S1 : sqrt z * sqrt z = z) by (apply sqrt_sqrt, P). assert (S2 : 1 < sqrt z) by (rewrite <- sqrt_1; apply sqrt_lt_1_alt; lra).
  set (t := sqrt z) in *. clearbody t. subst z. assert (2 * t - 1 < t * t) by nra. split; [split; nra|]. split; intros; nra.
Qed.
(** The robust chi^2 per degree of freedom never exceeds the plain one, and equals it exactly if no residual exceeds
    [f_scale]; both are non-negative, and neither exists without degrees of freedom. *)
Theorem C191_robust_chisq :
  forall fs res n, 0 < fs ->
  ((n < List.length res)%nat ->
   exists a b, chisq_robust (Fin fs) (map Fin res) n = Some (Fin a) /\ chisq_linear (map Fin res) n = Some (Fin b) /\
   0 <= a <= b /\ (a = b <-> forall r, In r res -> Rabs r <= fs) /\ b = Rsum (map (fun r => r ^ 2) res) / INR (List.length res - n)) /\
  (List.length res = n -> chisq_robust (Fin fs) (map Fin res) n = None /\ chisq_linear (map Fin res) n = None).
Proof.
  intros fs res n PF. split.
  - intros L. set (h := fun r => fs ^ 2 * rhuber ((r / fs) ^ 2)).
    assert (HB : forall r, 0 <= h r <= r ^ 2 /\ (h r = r ^ 2 <-> Rabs r <= fs)).
    { intros r. unfold h. destruct (rhuber_le ((r / fs) ^ 2) (pow2_ge_0 _)) as [[B1 B2] B3]. assert (PF2 : 0 < fs ^ 2) by (apply pow_lt, PF).
      assert (E : r ^ 2 = fs ^ 2 * (r / fs) ^ 2) by (field; lra). split; [split; [nra|rewrite E; nra]|].
      transitivity (rhuber ((r / fs) ^ 2) = (r / fs) ^ 2); [split; intros Q; [apply Rmult_eq_reg_l with (fs ^ 2); lra|rewrite Q; lra]|]. rewrite B3.
      assert (E2 : (r / fs) ^ 2 = (Rabs r / fs) ^ 2).
      { unfold Rdiv. rewrite !Rpow_mult_distr. rewrite <- (pow2_abs r). reflexivity. }
      rewrite E2. assert (PA : 0 <= Rabs r / fs) by (apply Rmult_le_pos; [apply Rabs_pos|left; apply Rinv_0_lt_compat, PF]).
      assert (E3 : Rabs r = Rabs r / fs * fs) by (field; lra). set (t := Rabs r / fs) in *. clearbody t. rewrite E3. split; intros Q; nra. }
    assert (PN : 0 < INR (List.length res - n)) by (apply lt_0_INR; lia).
    exists (Rsum (map h res) / INR (List.length res - n)), (Rsum (map (fun r => r ^ 2) res) / INR (List.length res - n)).
    split; [|split; [|split; [|split; [|reflexivity]]]].
    + unfold chisq_robust. rewrite map_length. unfold huber_cost. rewrite map_map.
      replace (map (fun x => huber (asq (adiv (Fin x) (Fin fs)))) res) with (map Fin (map (fun x => rhuber ((x / fs) ^ 2)) res)).
      2: { rewrite map_map. apply map_ext. intros r. rewrite fin_div, fin_sq, huber_fin by first [lra|apply Rle_0_sqr]. do 2 f_equal. ring. }
      rewrite sum_strict_fin, fin_sq, fin_mul, fin_half, fin_mul, scale_fin by exact L. do 2 f_equal. unfold h. rewrite Rsum_map_scal. field. lra.
    + unfold chisq_linear. rewrite map_length. destruct (Z.eqb _ 0) eqn:Q; [apply Z.eqb_eq in Q; lia|].
      replace (map asq (map Fin res)) with (map Fin (map (fun r => r ^ 2) res)) by (rewrite !map_map; apply map_ext; intros r; rewrite fin_sq; f_equal; ring).
      rewrite sum_strict_fin, fin_ofZ, fin_div by (apply not_0_IZR; lia). do 3 f_equal. rewrite INR_IZR_INZ. f_equal. lia.
    + split; [apply Rmult_le_pos; [|left; apply Rinv_0_lt_compat, PN]; apply Rsum_nonneg; intros y Hy; apply in_map_iff in Hy; destruct Hy as (r & <- & _); apply HB|].
      apply Rmult_le_compat_r; [left; apply Rinv_0_lt_compat, PN|]. apply Rsum_le. intros r _. apply HB.
    + transitivity (Rsum (map h res) = Rsum (map (fun r => r ^ 2) res)).
      { split; intros Q; [|rewrite Q; reflexivity]. apply Rmult_eq_reg_r with (/ INR (List.length res - n)); [exact Q|]. apply Rinv_neq_0_compat. lra. }
      clear - HB. induction res as [|r l IH]; [split; [intros _ r []|reflexivity]|]. cbn [map Rsum].
      assert (LE : Rsum (map h l) <= Rsum (map (fun r => r ^ 2) l)) by (apply Rsum_le; intros w _; apply HB). destruct (HB r) as [[_ B1] B2]. split.
      * intros Q w [<-|Iw]; [apply B2; lra|]. apply IH; [lra|exact Iw].
      * intros Q. rewrite (proj2 B2) by (apply Q; left; reflexivity). f_equal. apply IH. intros w Hw. apply Q. right. exact Hw.
  - intros E. unfold chisq_robust, chisq_linear, scale_sq. rewrite map_length, E, Nat.ltb_irrefl, Z.sub_diag. split; reflexivity.
Qed.
Print Assumptions C191_robust_chisq.
Example C191_ex : (1 < List.length [1%R; (-2)%R; 3%R])%nat /\ ~ (forall r, In r [1; -2; 3] -> Rabs r <= 1 / 10).
Proof. split; [cbn; lia|]. intros H. specialize (H 1 (or_introl eq_refl)). rewrite Rabs_R1 in H. lra. Qed.
