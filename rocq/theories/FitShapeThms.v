(** C55 (shapes), C100 (one curve, five parametrizations), C101 (reported formula), C102 (Moyal), C103 (usable start). *)
From Coq Require Import List String Bool Arith ZArith Reals Lra Lia Permutation.
From Verif Require Import Py PyStr Sort Num FitCore FitFuncs FitCoreThms FitFuncsThms FitGuessThms.
Import ListNotations.
Open Scope string_scope.
Open Scope list_scope.
Open Scope R_scope.

(* ================================================================ C55 *)
(** f (a function of one finite x) is real there with value g. *)
Lemma exp_neg_le_1 a : 0 <= a -> exp (- a) <= 1.
Proof. intros H. rewrite <- exp_0. destruct H as [H| <-]; [left; apply exp_increasing; lra|rewrite Ropp_0; lra]. Qed.
Lemma exp_neg_eq_1 a : exp (- a) = 1 -> a = 0.
Proof. intros H. rewrite <- exp_0 in H. apply exp_inv in H. lra. Qed.
Theorem C55_gaussian :
  forall mu sigma amp, sigma <> 0 ->
  (forall d, gaussian (Fin (mu + d)) (Fin mu) (Fin sigma) (Fin amp) = gaussian (Fin (mu - d)) (Fin mu) (Fin sigma) (Fin amp)) /\
  gaussian (Fin mu) (Fin mu) (Fin sigma) (Fin amp) = Fin amp /\
  (forall x, gaussian (Fin x) (Fin mu) (Fin (- sigma)) (Fin amp) = gaussian (Fin x) (Fin mu) (Fin sigma) (Fin amp)) /\
  (0 < amp -> forall x, exists v, gaussian (Fin x) (Fin mu) (Fin sigma) (Fin amp) = Fin v /\ 0 < v <= amp /\ (v = amp <-> x = mu)).
Proof.
  intros mu sigma amp NZ. assert (NZ' : - sigma <> 0) by lra. split; [|split; [|split]].
  - intros d. rewrite !gaussian_fin by exact NZ. unfold bell. do 3 f_equal. field. exact NZ.
  - rewrite gaussian_fin by exact NZ. unfold bell. replace (- ((mu - mu) / sigma) ^ 2 / 2) with 0 by (field; exact NZ). rewrite exp_0. f_equal. ring.
  - intros x. rewrite !gaussian_fin by assumption. unfold bell. do 3 f_equal. field. exact NZ.
  - intros P x. rewrite gaussian_fin by exact NZ. eexists. split; [reflexivity|]. unfold bell.
    set (u := ((x - mu) / sigma) ^ 2). assert (U : 0 <= u) by apply pow2_ge_0. replace (- u / 2) with (- (u / 2)) by lra.
    pose proof (exp_pos (- (u / 2))). pose proof (exp_neg_le_1 (u / 2)). split; [split; nra|]. split.
    + intros E. assert (X : exp (- (u / 2)) = 1) by (apply Rmult_eq_reg_l with amp; lra). apply exp_neg_eq_1 in X.
      assert (Z : u = 0) by lra. unfold u in Z. rewrite <- Rsqr_pow2 in Z. apply Rsqr_0_uniq in Z.
      assert ((x - mu) = 0) by (replace (x - mu) with ((x - mu) / sigma * sigma) by (field; exact NZ); rewrite Z; ring). lra.
    + intros ->. unfold u. replace (- (((mu - mu) / sigma) ^ 2 / 2)) with 0 by (field; exact NZ). rewrite exp_0. ring.
Qed.
Print Assumptions C55_gaussian.
Lemma sqrt_2pi : 0 < sqrt (2 * PI). Proof. apply sqrt_lt_R0. pose proof PI_RGT_0. lra. Qed.
Lemma tpi_fin : (tpi : XR) = Fin PI. Proof. reflexivity. Qed.
(** GaussianNormalized is the Gaussian of amplitude n / (sqrt(2 pi) sigma). *)
Theorem C55_gaussian_normalized :
  forall x mu sigma n, sigma <> 0 ->
  gaussian_normalized (Fin x) (Fin mu) (Fin sigma) (Fin n) = gaussian (Fin x) (Fin mu) (Fin sigma) (Fin (n / (sqrt (2 * PI) * sigma))).
Proof.
  intros x mu sigma n NZ. unfold gaussian_normalized, gaussian. cbv zeta. rewrite tpi_fin, (fin_ofZ 2), (fin_mul 2 PI), fin_sqrt by (pose proof PI_RGT_0; lra).
  rewrite (fin_mul (sqrt _)), (fin_div n) by (apply Rmult_integral_contrapositive_currified; [pose proof sqrt_2pi; lra|exact NZ]). reflexivity.
Qed.
Print Assumptions C55_gaussian_normalized.
(** GaussianLn peaks at exp(m) and is symmetric in the ratio to it. *)
Lemma gaussian_ln_fin x m s amp : 0 < x -> s <> 0 -> gaussian_ln (Fin x) (Fin m) (Fin s) (Fin amp) = Fin (bell m s amp (ln x)).
Proof.
  intros P NZ. unfold gaussian_ln. rewrite fin_ln by exact P. change (amul (Fin amp) (texp (amul (aopp ahalf) (asq (adiv (asub (Fin (ln x)) (Fin m)) (Fin s)))))) with (gaussian (Fin (ln x)) (Fin m) (Fin s) (Fin amp)).
  apply gaussian_fin. exact NZ.
Qed.
Theorem C55_gaussian_ln :
  forall m s amp, s <> 0 ->
  (forall t, 0 < t -> gaussian_ln (Fin (exp m * t)) (Fin m) (Fin s) (Fin amp) = gaussian_ln (Fin (exp m / t)) (Fin m) (Fin s) (Fin amp)) /\
  gaussian_ln (Fin (exp m)) (Fin m) (Fin s) (Fin amp) = Fin amp /\
  (0 < amp -> forall x, 0 < x -> exists v, gaussian_ln (Fin x) (Fin m) (Fin s) (Fin amp) = Fin v /\ 0 < v <= amp /\ (v = amp <-> x = exp m)).
Proof.
  intros m s amp NZ. pose proof (exp_pos m) as EP. split; [|split].
  - intros t P. rewrite !gaussian_ln_fin; try exact NZ; try (apply Rmult_lt_0_compat; [exact EP|try exact P; apply Rinv_0_lt_compat, P]).
    unfold Rdiv. rewrite !ln_mult, ln_Rinv, ln_exp; try assumption; try (apply Rinv_0_lt_compat, P). unfold bell. do 3 f_equal. field. exact NZ.
  - rewrite gaussian_ln_fin, ln_exp by assumption. unfold bell. replace (- ((m - m) / s) ^ 2 / 2) with 0 by (field; exact NZ). rewrite exp_0. f_equal. ring.
  - intros P x PX. rewrite gaussian_ln_fin by assumption. destruct (C55_gaussian m s amp NZ) as (_ & _ & _ & G). destruct (G P (ln x)) as (v & E & B & I).
    rewrite gaussian_fin in E by exact NZ. exists v. split; [exact E|]. split; [exact B|]. rewrite I. split.
    + intros <-. symmetry. apply exp_ln, PX.
    + intros ->. apply ln_exp.
Qed.
Print Assumptions C55_gaussian_ln.
(** Power laws: multiplicative, A at 1, and the shifted and offset variants. *)
Theorem C55_power_law :
  forall amp b x y c x0, 0 < x -> 0 < y ->
  power_law (Fin 1) (Fin amp) (Fin b) = Fin amp /\
  (exists fx fy fxy, power_law (Fin x) (Fin amp) (Fin b) = Fin fx /\ power_law (Fin y) (Fin amp) (Fin b) = Fin fy /\
     power_law (Fin (x * y)) (Fin amp) (Fin b) = Fin fxy /\ fxy * amp = fx * fy) /\
  (0 < amp -> 0 < b -> x < y -> exists fx fy, power_law (Fin x) (Fin amp) (Fin b) = Fin fx /\ power_law (Fin y) (Fin amp) (Fin b) = Fin fy /\ 0 < fx < fy) /\
  power_law_off_center (Fin (x0 + x)) (Fin amp) (Fin b) (Fin x0) = power_law (Fin x) (Fin amp) (Fin b) /\
  power_law_plus_c (Fin x) (Fin amp) (Fin b) (Fin c) = aadd (power_law (Fin x) (Fin amp) (Fin b)) (Fin c).
Proof.
  intros amp b x y c x0 PX PY. assert (PXY : 0 < x * y) by (apply Rmult_lt_0_compat; assumption).
  split; [|split; [|split; [|split]]].
  - unfold power_law. rewrite fin_pow, fin_mul by lra. unfold Rpower. rewrite ln_1, Rmult_0_r, exp_0. f_equal. ring.
  - unfold power_law. rewrite !fin_pow, !fin_mul by assumption. eexists _, _, _. repeat (split; [reflexivity|]).
    rewrite <- (Rpower_mult_distr x y b) by assumption. ring.
  - intros PA PB L. unfold power_law. rewrite !fin_pow, !fin_mul by assumption. eexists _, _. repeat (split; [reflexivity|]).
    assert (P : 0 < Rpower x b) by apply exp_pos. split; [apply Rmult_lt_0_compat; assumption|]. apply Rmult_lt_compat_l; [exact PA|].
    unfold Rpower. apply exp_increasing, Rmult_lt_compat_l; [exact PB|apply ln_increasing; assumption].
  - unfold power_law_off_center, power_law. rewrite fin_sub. do 3 f_equal. ring.
  - reflexivity.
Qed.
Print Assumptions C55_power_law.
(** Exponential: positive, strictly decreasing, halved every ln 2 / c, and eventually below any level. *)
Lemma exponential_fin x c amp : exponential (Fin x) (Fin c) (Fin amp) = Fin (amp * exp (- (c * x))).
Proof. reflexivity. Qed.
Theorem C55_exponential :
  forall c amp, 0 < c -> 0 < amp -> exists f, (forall x, exponential (Fin x) (Fin c) (Fin amp) = Fin (f x)) /\
  f 0 = amp /\ (forall x, 0 < f x) /\ (forall x y, x < y -> f y < f x) /\ (forall x, f (x + ln 2 / c) = f x / 2) /\
  (forall eps, 0 < eps -> exists X, forall x, X <= x -> f x < eps) /\
  (forall d x, exponential_plus_c (Fin x) (Fin c) (Fin amp) (Fin d) = Fin (f x + d)).
Proof.
  intros c amp PC PA. exists (fun x => amp * exp (- (c * x))). split; [intros; apply exponential_fin|].
  split; [rewrite Rmult_0_r, Ropp_0, exp_0; ring|]. split; [intros x; apply Rmult_lt_0_compat; [exact PA|apply exp_pos]|].
  split; [|split; [|split]].
  - intros x y L. apply Rmult_lt_compat_l; [exact PA|]. apply exp_increasing. nra.
  - intros x. replace (- (c * (x + ln 2 / c))) with (- (c * x) + - ln 2) by (field; lra). rewrite exp_plus, (exp_Ropp (ln 2)), exp_ln by lra. field.
  - intros eps PE. exists ((1 - ln (eps / amp)) / c). intros x H.
    assert (Q : 0 < eps / amp) by (apply Rmult_lt_0_compat; [exact PE|apply Rinv_0_lt_compat, PA]).
    assert (L : 1 - ln (eps / amp) <= c * x).
    { apply Rmult_le_compat_l with (r := c) in H; [|lra]. replace (c * ((1 - ln (eps / amp)) / c)) with (1 - ln (eps / amp)) in H by (field; lra). exact H. }
    assert (E : exp (- (c * x)) < eps / amp).
    { rewrite <- (exp_ln (eps / amp)) at 1 by exact Q. apply exp_increasing. lra. }
    replace eps with (amp * (eps / amp)) by (field; lra). apply Rmult_lt_compat_l; assumption.
  - reflexivity.
Qed.
Print Assumptions C55_exponential.
Theorem C55_exponential_cdf :
  forall c y0, 0 < c -> 0 < y0 -> exists f, (forall x, exponential_cdf (Fin y0) (Fin x) (Fin c) = Fin (f x)) /\
  f 0 = 0 /\ (forall x, 0 <= x -> 0 <= f x < y0) /\ (forall x y, x < y -> f x < f y) /\
  (forall eps, 0 < eps -> exists X, forall x, X <= x -> y0 - eps < f x).
Proof.
  intros c y0 PC PY. destruct (C55_exponential c y0 PC PY) as (g & G0 & G1 & G2 & G3 & _ & G4 & _).
  exists (fun x => y0 - g x). split.
  { intros x. specialize (G0 x). rewrite exponential_fin in G0. apply Fin_inj in G0. rewrite <- G0.
    unfold exponential_cdf. rewrite fin_mul, fin_opp, fin_exp, fin_ofZ, fin_sub, fin_mul. f_equal. ring. }
  split; [rewrite G1; ring|]. split; [|split].
  - intros x H. pose proof (G2 x). assert (g x <= y0) by (rewrite <- G1; destruct H as [H| <-]; [left; apply G3, H|lra]). lra.
  - intros x y L. pose proof (G3 x y L). lra.
  - intros eps PE. destruct (G4 eps PE) as [X HX]. exists X. intros x H. pose proof (HX x H). lra.
Qed.
Print Assumptions C55_exponential_cdf.
Lemma moyal_fin x mu sigma amp : sigma <> 0 ->
  moyal (Fin x) (Fin mu) (Fin sigma) (Fin amp) =
  Fin (let u := ((x - mu) / sigma) ^ 2 in amp * (exp (exp (/ 2 * (u - exp u))) - 1)).
Proof.
  intros NZ. unfold moyal. cbv zeta. rewrite fin_sub, fin_div, fin_sq, fin_exp, fin_sub, fin_half, fin_mul, !fin_exp, fin_ofZ, fin_sub, fin_mul by exact NZ.
  replace ((x - mu) / sigma * ((x - mu) / sigma)) with (((x - mu) / sigma) ^ 2) by ring. do 6 f_equal. field.
Qed.
(** Moyal: largest at mu. *)
Theorem C55_moyal_peaks_at_mu :
  forall mu sigma amp, sigma <> 0 -> 0 < amp ->
  exists top, moyal (Fin mu) (Fin mu) (Fin sigma) (Fin amp) = Fin top /\
  forall x, exists v, moyal (Fin x) (Fin mu) (Fin sigma) (Fin amp) = Fin v /\ 0 < v <= top /\ (v = top <-> x = mu).
Proof.
  intros mu sigma amp NZ PA. rewrite moyal_fin by exact NZ. eexists. split; [reflexivity|]. intros x. rewrite moyal_fin by exact NZ.
  eexists. split; [reflexivity|]. cbv zeta. replace (((mu - mu) / sigma) ^ 2) with 0 by (field; exact NZ). rewrite exp_0.
  set (u := ((x - mu) / sigma) ^ 2). assert (U : 0 <= u) by apply pow2_ge_0.
  set (top := exp (/ 2 * (0 - 1))). set (w := exp (/ 2 * (u - exp u))).
  assert (W0 : 0 < w) by apply exp_pos. assert (WP : 1 < exp w) by (rewrite <- exp_0 at 1; apply exp_increasing, W0).
  destruct (Req_dec u 0) as [Z|N].
  - assert (E : w = top) by (unfold w, top; rewrite Z, exp_0; reflexivity). rewrite E in *. split; [split; [nra|lra]|]. split; [|reflexivity].
    intros _. unfold u in Z. rewrite <- Rsqr_pow2 in Z. apply Rsqr_0_uniq in Z.
    assert ((x - mu) = 0) by (replace (x - mu) with ((x - mu) / sigma * sigma) by (field; exact NZ); rewrite Z; ring). lra.
  - pose proof (exp_ineq1 u N) as I. assert (L : w < top) by (unfold w, top; apply exp_increasing; lra).
    assert (L2 : exp w < exp top) by (apply exp_increasing, L). split; [split; nra|]. split.
    + intros E. exfalso. assert (exp w = exp top) by (assert (exp w - 1 = exp top - 1) by (apply Rmult_eq_reg_l with amp; lra); lra). lra.
    + intros ->. exfalso. apply N. unfold u. field. exact NZ.
Qed.
Print Assumptions C55_moyal_peaks_at_mu.
Example C55_ex : (2:R) <> 0 /\ (0:R) < 3. Proof. lra. Qed.

(* ================================================================ C102 *)
(** Documented as "for fitting asymmetric peaks": it is symmetric about mu for all parameters. *)
Theorem C102_moyal_is_symmetric_refuted :
  forall mu sigma amp d, sigma <> 0 ->
  moyal (Fin (mu + d)) (Fin mu) (Fin sigma) (Fin amp) = moyal (Fin (mu - d)) (Fin mu) (Fin sigma) (Fin amp).
Proof.
  intros mu sigma amp d NZ. rewrite !moyal_fin by exact NZ. cbv zeta.
  replace (((mu - d - mu) / sigma) ^ 2) with (((mu + d - mu) / sigma) ^ 2) by (field; exact NZ). reflexivity.
Qed.
Print Assumptions C102_moyal_is_symmetric_refuted.

(* ================================================================ C101 *)
(** The formulas the TeX_function properties report. *)
Definition tex_gaussian_ln (x m s a : R) : R := a * exp ((ln x - m) ^ 2 / (2 * s ^ 2)).                    (* gaussians.py 176-184 *)
Definition tex_moyal (x mu sigma a : R) : R := a * exp (/ 2 * (((x - mu) / sigma) ^ 2 - exp (((x - mu) / sigma) ^ 2))). (* moyal.py 74 *)
Theorem C101_reported_formulas_partial :
  forall x a b c m x0 mu sigma : R, sigma <> 0 ->
  gaussian (Fin x) (Fin mu) (Fin sigma) (Fin a) = Fin (a * exp (- / 2 * ((x - mu) / sigma) ^ 2)) /\                     (* gaussians.py 48 *)
  gaussian_normalized (Fin x) (Fin mu) (Fin sigma) (Fin a) = Fin (a / (sqrt (2 * PI) * sigma) * exp (- / 2 * ((x - mu) / sigma) ^ 2)) /\ (* 102 *)
  line (Fin x) (Fin m) (Fin b) = Fin (m * x + b) /\ line_xint (Fin x) (Fin m) (Fin x0) = Fin (m * (x - x0)) /\             (* lines.py 63, 136 *)
  (0 < x -> power_law (Fin x) (Fin a) (Fin b) = Fin (a * Rpower x b)) /\                                                  (* power_laws.py 52 *)
  (0 < x -> power_law_plus_c (Fin x) (Fin a) (Fin b) (Fin c) = Fin (a * Rpower x b + c)) /\                                (* 104 *)
  (x0 < x -> power_law_off_center (Fin x) (Fin a) (Fin b) (Fin x0) = Fin (a * Rpower (x - x0) b)) /\                       (* 147 *)
  exponential (Fin x) (Fin c) (Fin a) = Fin (a * exp (- c * x)) /\ exponential_cdf (Fin a) (Fin x) (Fin c) = Fin (a * (1 - exp (- c * x))). (* exponentials.py 43, 114 *)
Proof.
  intros x a b c m x0 mu sigma NZ.
  assert (B : forall k, gaussian (Fin x) (Fin mu) (Fin sigma) (Fin k) = Fin (k * exp (- / 2 * ((x - mu) / sigma) ^ 2))).
  { intros k. rewrite gaussian_fin by exact NZ. unfold bell. do 3 f_equal. field. exact NZ. }
  split; [apply B|]. split; [rewrite C55_gaussian_normalized by exact NZ; apply B|]. split; [reflexivity|]. split; [reflexivity|].
  split; [intros P; unfold power_law; rewrite fin_pow, fin_mul by exact P; reflexivity|].
  split; [intros P; unfold power_law_plus_c; rewrite fin_pow, fin_mul, fin_add by exact P; reflexivity|].
  split; [intros P; unfold power_law_off_center; rewrite fin_sub, fin_pow, fin_mul by lra; reflexivity|].
  split; [rewrite exponential_fin; do 3 f_equal; ring|].
  unfold exponential_cdf. rewrite fin_mul, fin_opp, fin_exp, fin_ofZ, fin_sub, fin_mul. do 4 f_equal. ring.
Qed.
Print Assumptions C101_reported_formulas_partial.
(** GaussianLn reports its formula without the minus sign: the two differ wherever x is not exp(m). *)
Theorem C101_gaussian_ln_formula_refuted :
  forall x m s a, 0 < x -> s <> 0 -> a <> 0 -> x <> exp m ->
  gaussian_ln (Fin x) (Fin m) (Fin s) (Fin a) <> Fin (tex_gaussian_ln x m s a).
Proof.
  intros x m s a P NZ NA NM H. rewrite gaussian_ln_fin in H by assumption. apply Fin_inj in H. unfold bell, tex_gaussian_ln in H.
  apply Rmult_eq_reg_l in H; [|exact NA]. apply exp_inv in H.
  assert (Z : ((ln x - m) / s) ^ 2 = 0).
  { assert (E : (ln x - m) ^ 2 / (2 * s ^ 2) = ((ln x - m) / s) ^ 2 / 2) by (field; exact NZ). rewrite E in H. lra. }
  rewrite <- Rsqr_pow2 in Z. apply Rsqr_0_uniq in Z.
  assert (L : ln x - m = 0) by (replace (ln x - m) with ((ln x - m) / s * s) by (field; exact NZ); rewrite Z; ring).
  apply NM. rewrite <- (exp_ln x) at 1 by exact P. f_equal. lra.
Qed.
Print Assumptions C101_gaussian_ln_formula_refuted.
(** Moyal fits A (exp(g) - 1) while it reports A g: different for every x. *)
Theorem C101_moyal_formula_refuted :
  forall x mu sigma a, sigma <> 0 -> a <> 0 -> moyal (Fin x) (Fin mu) (Fin sigma) (Fin a) <> Fin (tex_moyal x mu sigma a).
Proof.
  intros x mu sigma a NZ NA H. rewrite moyal_fin in H by exact NZ. cbv zeta in H. apply Fin_inj in H. unfold tex_moyal in H.
  set (w := exp (/ 2 * (((x - mu) / sigma) ^ 2 - exp (((x - mu) / sigma) ^ 2)))) in *.
  assert (W0 : 0 < w) by apply exp_pos. apply Rmult_eq_reg_l in H; [|exact NA]. pose proof (exp_ineq1 w). lra.
Qed.
Print Assumptions C101_moyal_formula_refuted.

(* ================================================================ C100 *)
(** One bent line, five parametrizations: TwoLine, Saturation, HingeMin, HingeAtPoint and HingeSaturation agree at every x
    when given each other's derived quantities. *)
Lemma tan_back m1 m2 : tan (atan m1 - (atan m1 - atan m2)) = m2.
Proof. replace (atan m1 - (atan m1 - atan m2)) with (atan m2) by ring. apply tan_atan. Qed.
Theorem C100_parametrizations_agree :
  forall x x1 x2 m1 m2, m2 < m1 -> m1 <> 0 -> m2 <> 0 -> x1 <> x2 ->
  let f := twoline (Fin x) (Fin x1) (Fin x2) (Fin m1) (Fin m2) in
  let xs := twoline_xs (Fin x1) (Fin x2) (Fin m1) (Fin m2) in
  let s := twoline_s (Fin x1) (Fin x2) (Fin m1) (Fin m2) in
  saturation (Fin x) (Fin x1) xs s (twoline_theta (Fin m1) (Fin m2)) = f /\
  hinge_min (Fin x) (Fin m1) (Fin x1) (Fin x2) xs = f /\
  hinge_at_point (Fin x) xs s (Fin m1) (Fin m2) = f /\
  (1 / 1000000000000000 < Rabs m2 -> hinge_saturation (Fin x) xs s (Fin x1) (Fin m2) = f).
Proof.
  intros x x1 x2 m1 m2 L N1 N2 NX f xs s. destruct (C53_twoline x x1 x2 m1 m2 L) as (xs' & s' & E1 & E2 & E3).
  unfold f, xs, s. rewrite E1, E2, E3. clear f xs s.
  rewrite twoline_xs_fin in E1 by lra. apply Fin_inj in E1.
  assert (D1 : xs' - x1 = m2 * (x1 - x2) / (m1 - m2)) by (rewrite <- E1; field; lra).
  assert (D2 : xs' - x2 = m1 * (x1 - x2) / (m1 - m2)) by (rewrite <- E1; field; lra).
  assert (NZ1 : xs' - x1 <> 0).
  { rewrite D1. unfold Rdiv. repeat apply Rmult_integral_contrapositive_currified; try lra. apply Rinv_neq_0_compat. lra. }
  assert (NZ2 : xs' - x2 <> 0).
  { rewrite D2. unfold Rdiv. repeat apply Rmult_integral_contrapositive_currified; try lra. apply Rinv_neq_0_compat. lra. }
  unfold twoline_s in E2. rewrite twoline_xs_fin, E1, fin_sub, fin_mul in E2 by lra. apply Fin_inj in E2.
  assert (M1 : s' / (xs' - x1) = m1) by (rewrite <- E2; field; exact NZ1).
  assert (M2 : m1 * (xs' - x1) / (xs' - x2) = m2) by (rewrite D1, D2; field; repeat split; lra).
  split; [|split; [|split]].
  - unfold twoline_theta. rewrite !fin_atan, fin_sub.
    pose proof (C53_saturation x x1 xs' s' (atan m1 - atan m2)) as S. cbv zeta in S. rewrite M1, tan_back in S. apply S; lra.
  - pose proof (C53_hinge_min_max x m1 x1 x2 xs') as H. cbv zeta in H. rewrite M2 in H. destruct H as (_ & H & _); [lra|]. rewrite H by lra. rewrite E2. reflexivity.
  - apply C53_hinge_at_point; lra.
  - intros B. pose proof (C53_hinge_saturation x xs' s' x1 m2) as H. rewrite M1 in H. unfold effective_slope in H.
    destruct (Rlt_dec (1 / 1000000000000000) (Rabs m2)); [|contradiction]. apply H; lra.
Qed.
Print Assumptions C100_parametrizations_agree.
(** The angle HingeMin and HingeMax report is the one TwoLine reports. *)
Lemma atan_tan_shift d : PI / 2 < d < 3 * PI / 2 -> atan (tan d) = d - PI.
Proof.
  intros H. replace (tan d) with (tan (d - PI)); [apply atan_tan; lra|].
  unfold tan. rewrite sin_minus, cos_minus, sin_PI, cos_PI.
  replace (sin d * -1 - cos d * 0) with (- sin d) by ring. replace (cos d * -1 + sin d * 0) with (- cos d) by ring.
  assert (cos d < 0) by (apply cos_lt_0; lra). field. lra.
Qed.
Lemma atan2_polar K d : 0 < K -> 0 < d < PI -> Ratan2 (K * sin d) (K * cos d) = d.
Proof.
  intros PK D. assert (S : 0 < sin d) by (apply sin_gt_0; lra). unfold Ratan2.
  destruct (Rtotal_order d (PI / 2)) as [L|[E|G]].
  - assert (C : 0 < cos d) by (apply cos_gt_0; lra). rewrite (proj2 (Rltb_true 0 (K * cos d))) by nra.
    replace (K * sin d / (K * cos d)) with (tan d) by (unfold tan; field; lra). apply atan_tan. lra.
  - rewrite E, cos_PI2, sin_PI2, Rmult_0_r, Rmult_1_r. rewrite !(proj2 (Rltb_false 0 0)) by lra. rewrite (proj2 (Rltb_true 0 K)) by lra. reflexivity.
  - assert (C : cos d < 0) by (apply cos_lt_0; lra). rewrite (proj2 (Rltb_false 0 (K * cos d))) by nra. rewrite (proj2 (Rltb_true (K * cos d) 0)) by nra.
    rewrite (proj2 (Rleb_true 0 (K * sin d))) by nra. replace (K * sin d / (K * cos d)) with (tan d) by (unfold tan; field; lra).
    rewrite atan_tan_shift by lra. ring.
Qed.
Theorem C100_angles_agree :
  forall m1 x1 x2 h, h <> x2 -> let m2 := m1 * (h - x1) / (h - x2) in m2 < m1 ->
  hinge_theta (Fin m1) (Fin x1) (Fin x2) (Fin h) = twoline_theta (Fin m1) (Fin m2).
Proof.
  intros m1 x1 x2 h NZ m2 L. unfold hinge_theta. destruct (C53_hinge_min_max 0 m1 x1 x2 h NZ) as (E & _). cbv zeta in *. rewrite E. fold m2.
  rewrite fin_ofZ, fin_mul, fin_add, fin_sub. unfold twoline_theta. rewrite !fin_atan, fin_sub.
  change (tatan2 (Fin (m1 - m2)) (Fin (1 + m1 * m2))) with (Fin (Ratan2 (m1 - m2) (1 + m1 * m2))). f_equal.
  set (d := atan m1 - atan m2). set (K := sqrt (1 + m1 * m1) * sqrt (1 + m2 * m2)).
  assert (P1 : 0 < 1 + m1 * m1) by nra. assert (P2 : 0 < 1 + m2 * m2) by nra.
  assert (Q1 : 0 < sqrt (1 + m1 * m1)) by (apply sqrt_lt_R0, P1). assert (Q2 : 0 < sqrt (1 + m2 * m2)) by (apply sqrt_lt_R0, P2).
  assert (SD : K * sin d = m1 - m2).
  { unfold d, K. rewrite sin_minus, !sin_atan, !cos_atan. unfold Rsqr. field. lra. }
  assert (CD : K * cos d = 1 + m1 * m2).
  { unfold d, K. rewrite cos_minus, !sin_atan, !cos_atan. unfold Rsqr. field. lra. }
  rewrite <- SD, <- CD. apply atan2_polar; [unfold K; nra|]. unfold d.
  pose proof (atan_bound m1). pose proof (atan_bound m2). pose proof (atan_increasing _ _ L). lra.
Qed.
Print Assumptions C100_angles_agree.
Example C100_ex : (1:R) < 2 /\ (2:R) <> 0 /\ (1:R) <> 0 /\ (0:R) <> - 3 /\ 1 / 1000000000000000 < Rabs 1.
Proof. rewrite Rabs_R1. lra. Qed.

(* ================================================================ C103 *)
(** With fewer than two points at or beyond the guessed hinge, the start of HingeAtPoint makes the model
    undefined at every x. *)
Theorem C103_hinge_at_point_start_refuted :
  forall pts xh p, (List.length (filter (fun z => Rleb xh (fst z)) pts) < 2)%nat ->
  hinge_at_point_p0 (Fin xh) (real_obs pts) = Ok (Some p) ->
  (forall x, exists yh m1, p = [Fin xh; yh; m1; Fin 0] /\ ap4 hinge_at_point p (Fin x) = NaN).
Proof.
  intros pts xh p LT H x. unfold hinge_at_point_p0, real_obs in H. cbn [o_x o_y] in H.
  destruct (combine _ _) as [|q r]; [discriminate|]. destruct (arr_min (xs_of pts)) as [xmin|e]; [|discriminate]. cbn [bind] in H.
  assert (C : forall q, count (fun v => ageb v (Fin xh)) (xs_of q) = List.length (filter (fun z => Rleb xh (fst z)) q)).
  { clear. unfold count, ageb. induction q as [|z r IH]; cbn [map filter]; [reflexivity|]. rewrite fin_leb. destruct (Rleb xh (fst z)); cbn [List.length]; rewrite IH; reflexivity. }
  rewrite C in H. assert (N : Nat.leb 2 (List.length (filter (fun z => Rleb xh (fst z)) pts)) = false) by (apply Nat.leb_gt; exact LT).
  rewrite N in H. cbv zeta in H. injection H as <-. rewrite (fin_ofZ 0). eexists _, _. split; [reflexivity|]. cbn [ap4].
  unfold hinge_at_point. cbv zeta. generalize (nearest (Fin xh) q r). intros yh.
  assert (F : amul (Fin 0) (asub (Fin x) (asub (Fin xh) (adiv yh (Fin 0)))) = NaN).
  { destruct yh as [a| | |]; [apply flat_branch| | |]; apply zero_times_nonfin; intros b.
    - change (adiv PInf (Fin 0)) with (xdiv PInf (Fin 0)). cbn. destruct (Rltb 0 0); discriminate.
    - change (adiv MInf (Fin 0)) with (xdiv MInf (Fin 0)). cbn. destruct (Rltb 0 0); discriminate.
    - discriminate. }
  rewrite F. apply min_nan_r.
Qed.
Print Assumptions C103_hinge_at_point_start_refuted.
(** and that of HingeMin puts x2 on the hinge, so that the model is infinite at every x before it (rising data). *)
Theorem C103_hinge_min_start_refuted :
  forall m1 x1 pts h, (2 <= List.length pts)%nat -> (forall z, In z pts -> fst z < h) -> steps_ok pts -> through m1 x1 pts -> m1 <> 0 ->
  hinge_p0 (Fin h) (real_obs pts) = Ok (Some [Fin m1; Fin x1; Fin h; Fin h]) /\
  (0 < m1 * (h - x1) -> forall x, x < h -> hinge_min (Fin x) (Fin m1) (Fin x1) (Fin h) (Fin h) = MInf).
Proof.
  intros m1 x1 pts h LEN B S TH N1. split.
  - unfold hinge_p0, real_obs. cbn [o_x o_y].
    assert (FB : filter (fun z => Rltb (fst z) h) pts = pts).
    { clear - B. induction pts as [|z r IH]; [reflexivity|]. cbn [filter]. rewrite (proj2 (Rltb_true _ _)) by (apply B; left; reflexivity). rewrite IH; [reflexivity|]. intros w Hw. apply B. right. exact Hw. }
    assert (CB : count (fun v => altb v (Fin h)) (xs_of pts) = List.length pts).
    { rewrite <- FB at 2. clear. unfold count. induction pts as [|z r IH]; cbn [map filter]; [reflexivity|]. rewrite fin_ltb. destruct (Rltb (fst z) h); cbn [List.length]; rewrite IH; reflexivity. }
    assert (CA : count (fun v => ageb v (Fin h)) (xs_of pts) = 0%nat).
    { clear - B. unfold count, ageb. induction pts as [|z r IH]; cbn [map filter]; [reflexivity|]. rewrite fin_leb, (proj2 (Rleb_false _ _)) by (apply B; left; reflexivity). apply IH. intros w Hw. apply B. right. exact Hw. }
    rewrite CB, CA. rewrite (proj2 (Nat.leb_le 2 (List.length pts)) LEN). cbn [Nat.leb].
    pose proof (estimate_line_exact (fun v => altb v (Fin h)) (fun a => Rltb a h) pts m1 x1) as EL. cbv beta zeta in EL. rewrite FB in EL.
    specialize (EL (fun a => fin_ltb a h) LEN S TH N1). unfold estimate_line in EL. cbv zeta in EL. injection EL as E1 E2. rewrite E2 in E1. cbn [bind fst snd]. rewrite E2, E1. reflexivity.
  - intros P x L. unfold hinge_min, hinge_m2. rewrite !fin_sub, !fin_mul. rewrite (Rminus_diag_eq h h eq_refl).
    assert (D : adiv (Fin (m1 * (h - x1))) (Fin 0) = PInf).
    { change (adiv (Fin (m1 * (h - x1))) (Fin 0)) with (xdiv (Fin (m1 * (h - x1))) (Fin 0)). unfold xdiv. rewrite (proj2 (Reqb_true 0 0) eq_refl). unfold inf_sign. rewrite (proj2 (Rltb_true _ _) P). reflexivity. }
    rewrite D. change (amul PInf (Fin (x - h))) with (xmul PInf (Fin (x - h))). unfold xmul, inf_sign.
    rewrite (proj2 (Rltb_false 0 (x - h))) by lra. rewrite (proj2 (Rltb_true (x - h) 0)) by lra. reflexivity.
Qed.
Print Assumptions C103_hinge_min_start_refuted.
Example C103_ex : (forall z, In z [(1, 1); (2, 2)] -> fst z < 400) /\ steps_ok [(1, 1); (2, 2)] /\ through 1 0 [(1, 1); (2, 2)] /\ 0 < 1 * (400 - 0).
Proof. repeat split; try lra; try (intros z [<-|[<-|[]]]; cbn; lra); cbn; lra. Qed.
