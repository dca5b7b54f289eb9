(** Theorems about vectors and spacecraft: C29-C34. *)
From Coq Require Import List String Ascii Bool Arith ZArith Reals Lra Psatz.
From Verif Require Import Py PyStr Sort Num Species SpeciesProofs Frame FrameProofs Plasma Vector Spacecraft StoreProofs.
Import ListNotations.
Open Scope R_scope.

(* ---------------------------------------------------------------- specification: real 3-vectors *)
Definition vec3 : Type := R * R * R.
Definition dot3 (u v : vec3) : R :=
  let '(a, b, c) := u in let '(x, y, z) := v in a * x + b * y + c * z.
Definition norm3 (v : vec3) : R := sqrt (dot3 v v).
Definition scale3 (k : R) (v : vec3) : vec3 := let '(x, y, z) := v in (k * x, k * y, k * z).
Definition add3 (u v : vec3) : vec3 :=
  let '(a, b, c) := u in let '(x, y, z) := v in (a + x, b + y, c + z).
Definition zero3 : vec3 := (0, 0, 0).
(** the row holding these numbers *)
Definition data3 (v : vec3) : vec XR := let '(x, y, z) := v in (Fin x, Fin y, Fin z).
Definition has_nan (v : vec XR) : Prop := let '(x, y, z) := v in x = NaN \/ y = NaN \/ z = NaN.

(* ---------------------------------------------------------------- lemmas *)
Lemma dot3_pos v : 0 <= dot3 v v.
Proof. destruct v as [[x y] z]; simpl; nra. Qed.
Lemma norm3_sq v : norm3 v * norm3 v = dot3 v v.
Proof. unfold norm3. apply sqrt_sqrt, dot3_pos. Qed.
Lemma norm3_pos v : 0 <= norm3 v.
Proof. apply sqrt_pos. Qed.
Lemma norm3_zero v : norm3 v = 0 <-> v = zero3.
Proof.
  split.
  - intros H. pose proof (norm3_sq v) as Q. rewrite H in Q. destruct v as [[x y] z]. simpl in Q.
    assert (x = 0) by nra. assert (y = 0) by nra. assert (z = 0) by nra. subst; reflexivity.
  - intros ->. unfold norm3, zero3, dot3. replace (0 * 0 + 0 * 0 + 0 * 0) with 0 by ring. apply sqrt_0.
Qed.
Lemma vmag_data3 v : vmag (data3 v) = Fin (norm3 v).
Proof.
  destruct v as [[x y] z]. cbn [data3 vmag]. rewrite !fin_sq.
  change [Fin (x * x); Fin (y * y); Fin (z * z)] with (map Fin [x * x; y * y; z * z]).
  rewrite sum_strict_fin. simpl Rsum. rewrite fin_sqrt by nra.
  unfold norm3, dot3. do 2 f_equal. ring.
Qed.
Lemma uv_data3 v : v <> zero3 -> unit_vector (data3 v) = data3 (scale3 (/ norm3 v) v).
Proof.
  intros H. assert (N : norm3 v <> 0) by (rewrite norm3_zero; exact H).
  unfold unit_vector, vbuild. rewrite vmag_data3. destruct v as [[x y] z]. cbn [data3 vcomp scale3].
  rewrite !fin_div by exact N. unfold Rdiv. rewrite !(Rmult_comm _ (/ norm3 (x, y, z))). reflexivity.
Qed.
Lemma vdot_data3 u v : vdot_skip (data3 u) (data3 v) = Fin (dot3 u v).
Proof.
  destruct u as [[a b] c], v as [[x y] z]. unfold vdot_skip. cbn [data3 vcomp]. rewrite !fin_mul.
  change [Fin (a * x); Fin (b * y); Fin (c * z)] with (map Fin [a * x; b * y; c * z]).
  rewrite sum_skip_fin. simpl. f_equal. ring.
Qed.
Lemma unit_dot b : b <> zero3 -> dot3 (scale3 (/ norm3 b) b) (scale3 (/ norm3 b) b) = 1.
Proof.
  intros H. assert (N : norm3 b <> 0) by (rewrite norm3_zero; exact H). pose proof (norm3_sq b) as Q.
  destruct b as [[x y] z]. simpl in *. set (n := norm3 (x, y, z)) in *. clearbody n.
  replace (/ n * x * (/ n * x) + / n * y * (/ n * y) + / n * z * (/ n * z)) with ((x * x + y * y + z * z) / (n * n)) by (field; exact N).
  rewrite <- Q. field. exact N.
Qed.
Lemma dot3_scale k u v : dot3 u (scale3 k v) = k * dot3 u v.
Proof. destruct u as [[a b] c], v as [[x y] z]. simpl. ring. Qed.
Lemma par_value v b : b <> zero3 -> project_par (data3 v) (data3 b) = Fin (dot3 v b / norm3 b).
Proof.
  intros H. unfold project_par. rewrite uv_data3, vdot_data3, dot3_scale by exact H. f_equal. unfold Rdiv. ring.
Qed.
Lemma per_value v b : b <> zero3 ->
  project_per (data3 v) (data3 b) = Fin (sqrt (dot3 v v - (dot3 v b / norm3 b) ^ 2)) /\
  0 <= dot3 v v - (dot3 v b / norm3 b) ^ 2.
Proof.
  intros H. pose proof (unit_dot b H) as U. unfold project_per. cbv zeta. rewrite uv_data3, vdot_data3 by exact H.
  assert (D : dot3 v b / norm3 b = dot3 v (scale3 (/ norm3 b) b)) by (rewrite dot3_scale; unfold Rdiv; ring).
  rewrite D. set (u := scale3 (/ norm3 b) b) in *. clearbody u.
  destruct v as [[x y] z], u as [[a c] d]. cbn [data3]. unfold vbuild. cbn [vcomp]. rewrite !fin_mul, !fin_sub.
  unfold sumsq_skip. cbn [vcomp]. rewrite !fin_sq.
  match goal with |- context [sum_skip [Fin ?p; Fin ?q; Fin ?r]] =>
    change [Fin p; Fin q; Fin r] with (map Fin [p; q; r]) end.
  rewrite sum_skip_fin. cbn [Rsum]. simpl in U. simpl dot3.
  set (par := x * a + y * c + z * d).
  assert (E : (x - a * par) * (x - a * par) + ((y - c * par) * (y - c * par) + ((z - d * par) * (z - d * par) + 0)) =
              x * x + y * y + z * z - par ^ 2).
  { transitivity (x * x + y * y + z * z - 2 * par * (x * a + y * c + z * d) + par * par * (a * a + c * c + d * d)); [ring|].
    rewrite U. fold par. ring. }
  rewrite <- E.
  assert (NN : 0 <= (x - a * par) * (x - a * par) + ((y - c * par) * (y - c * par) + ((z - d * par) * (z - d * par) + 0))).
  { pose proof (Rle_0_sqr (x - a * par)). pose proof (Rle_0_sqr (y - c * par)). pose proof (Rle_0_sqr (z - d * par)).
    unfold Rsqr in *. lra. }
  split; [|exact NN]. rewrite fin_sqrt by exact NN. reflexivity.
Qed.

(* ================================================================ C29 *)
Theorem C29_magnitude :
  forall v : vec3, exists m, vmag (data3 v) = Fin m /\ 0 <= m /\ m ^ 2 = dot3 v v /\ (m = 0 <-> v = zero3) /\
  forall k w, vmag (data3 (scale3 k v)) = Fin (Rabs k * m) /\
    (exists mw ms, vmag (data3 w) = Fin mw /\ vmag (data3 (add3 v w)) = Fin ms /\ ms <= m + mw).
Proof.
  intros v. exists (norm3 v). split; [apply vmag_data3|]. split; [apply norm3_pos|].
  split; [rewrite <- norm3_sq; ring|]. split; [apply norm3_zero|].
  intros k w. split.
  - rewrite vmag_data3. f_equal. unfold norm3. destruct v as [[x y] z]. simpl.
    replace (k * x * (k * x) + k * y * (k * y) + k * z * (k * z)) with (Rsqr k * (x * x + y * y + z * z)) by (unfold Rsqr; ring).
    rewrite sqrt_mult by (unfold Rsqr; nra). rewrite sqrt_Rsqr_abs. reflexivity.
  - exists (norm3 w), (norm3 (add3 v w)). rewrite !vmag_data3. repeat split.
    pose proof (norm3_pos v) as P1. pose proof (norm3_pos w) as P2.
    pose proof (norm3_sq v) as Q1. pose proof (norm3_sq w) as Q2.
    apply Rsqr_incr_0_var; [|lra]. unfold Rsqr. rewrite norm3_sq.
    assert (CS : dot3 v w <= norm3 v * norm3 w).
    { apply Rsqr_incr_0_var; [|nra]. unfold Rsqr.
      replace (norm3 v * norm3 w * (norm3 v * norm3 w)) with ((norm3 v * norm3 v) * (norm3 w * norm3 w)) by ring.
      rewrite Q1, Q2. destruct v as [[a b] c], w as [[x y] z]. simpl.
      clear. pose proof (pow2_ge_0 (a * y - b * x)). pose proof (pow2_ge_0 (a * z - c * x)). pose proof (pow2_ge_0 (b * z - c * y)). nra. }
    assert (E : dot3 (add3 v w) (add3 v w) = dot3 v v + 2 * dot3 v w + dot3 w w).
    { destruct v as [[a b] c], w as [[x y] z]. simpl. ring. }
    rewrite E, <- Q1, <- Q2. nra.
Qed.
Print Assumptions C29_magnitude.
(** Any missing component makes the magnitude missing. *)
Theorem C29_missing_component : forall v : vec XR, has_nan v -> vmag v = NaN.
Proof.
  intros [[x y] z] H. unfold vmag.
  assert (E : sum_strict [asq x; asq y; asq z] = NaN).
  { apply sum_strict_nan. destruct H as [->|[->| ->]].
    - left. reflexivity.
    - right; left. reflexivity.
    - right; right; left. reflexivity. }
  rewrite E. reflexivity.
Qed.
Print Assumptions C29_missing_component.

(* ================================================================ C30 *)
Theorem C30_projection_pythagoras :
  forall v b : vec3, b <> zero3 ->
  exists par per, project_call (data3 v) (PVec (data3 b)) = Ok (Fin par, Fin per) /\
    par * norm3 b = dot3 v b /\ 0 <= per /\ par ^ 2 + per ^ 2 = dot3 v v /\
    (* the perpendicular part vanishes exactly when v is along b *)
    (per = 0 <-> exists k, v = scale3 k b) /\
    forall k, 0 < k -> project_call (data3 v) (PVec (data3 (scale3 k b))) = Ok (Fin par, Fin per).
Proof.
  intros v b H. assert (N : norm3 b <> 0) by (rewrite norm3_zero; exact H).
  destruct (per_value v b H) as [P1 P2]. unfold project_call. rewrite (par_value v b H), P1.
  eexists; eexists. split; [reflexivity|]. split; [field; exact N|]. split; [apply sqrt_pos|].
  assert (S2 : sqrt (dot3 v v - (dot3 v b / norm3 b) ^ 2) ^ 2 = dot3 v v - (dot3 v b / norm3 b) ^ 2).
  { transitivity (sqrt (dot3 v v - (dot3 v b / norm3 b) ^ 2) * sqrt (dot3 v v - (dot3 v b / norm3 b) ^ 2)); [ring|].
    apply sqrt_sqrt, P2. }
  split; [rewrite S2; ring|]. split.
  - pose proof (norm3_sq b) as Q. split.
    + intros E. rewrite E in S2. exists (dot3 v b / (norm3 b * norm3 b)).
      assert (Z : dot3 v v * dot3 b b = dot3 v b * dot3 v b).
      { assert (dot3 v v = (dot3 v b / norm3 b) ^ 2) by lra. rewrite H0, <- Q. field. exact N. }
      rewrite Q. assert (N2 : dot3 b b <> 0) by (rewrite <- Q; nra).
      clear -Z N2. destruct v as [[x y] z], b as [[a c] d]. simpl in *.
      assert (L : 0 = (x * c - y * a) ^ 2 + (x * d - z * a) ^ 2 + (y * d - z * c) ^ 2).
      { transitivity ((x * x + y * y + z * z) * (a * a + c * c + d * d) - (x * a + y * c + z * d) * (x * a + y * c + z * d)); [rewrite Z; ring|ring]. }
      pose proof (pow2_ge_0 (x * c - y * a)). pose proof (pow2_ge_0 (x * d - z * a)). pose proof (pow2_ge_0 (y * d - z * c)).
      assert (P0 : forall t, t ^ 2 <= 0 -> t = 0) by (intros t Ht; nra).
      assert (L1 : x * c - y * a = 0) by (apply P0; lra). assert (L2 : x * d - z * a = 0) by (apply P0; lra). assert (L3 : y * d - z * c = 0) by (apply P0; lra).
      f_equal; [f_equal|]; apply (Rmult_eq_reg_r (a * a + c * c + d * d)); auto; field_simplify; auto; nra.
    + intros [k ->]. apply Rsqr_0_uniq. unfold Rsqr.
      replace (sqrt (dot3 (scale3 k b) (scale3 k b) - (dot3 (scale3 k b) b / norm3 b) ^ 2) * sqrt (dot3 (scale3 k b) (scale3 k b) - (dot3 (scale3 k b) b / norm3 b) ^ 2))
        with (sqrt (dot3 (scale3 k b) (scale3 k b) - (dot3 (scale3 k b) b / norm3 b) ^ 2) ^ 2) by ring.
      rewrite S2.
      replace ((dot3 (scale3 k b) b / norm3 b) ^ 2) with (dot3 (scale3 k b) b * dot3 (scale3 k b) b / (norm3 b * norm3 b)) by (field; exact N).
      rewrite Q. assert (N2 : dot3 b b <> 0) by (rewrite <- Q; nra).
      destruct b as [[a c] d]. simpl in *. field. exact N2.
  - intros k Hk.
    assert (NS : norm3 (scale3 k b) = k * norm3 b).
    { apply Rsqr_inj; [apply norm3_pos|pose proof (norm3_pos b); nra|]. unfold Rsqr.
      replace (k * norm3 b * (k * norm3 b)) with (k * k * (norm3 b * norm3 b)) by ring.
      rewrite !norm3_sq. destruct b as [[a c] d]; simpl; ring. }
    assert (HZ : scale3 k b <> zero3).
    { rewrite <- norm3_zero, NS. pose proof (norm3_pos b). nra. }
    destruct (per_value v (scale3 k b) HZ) as [P1' _]. rewrite (par_value v _ HZ), P1'.
    assert (E : dot3 v (scale3 k b) / norm3 (scale3 k b) = dot3 v b / norm3 b).
    { rewrite NS, dot3_scale. field. split; [exact N|lra]. }
    rewrite E. reflexivity.
Qed.
Print Assumptions C30_projection_pythagoras.
(** Only vectors can be projected on. *)
Theorem C30_other_arguments_rejected :
  forall v : vec XR, project_call v POther = Err NotImplementedError /\ cos_theta_call v POther = Err NotImplementedError.
Proof. intros v; split; reflexivity. Qed.
Example C30_ex : (0, 3, 4) <> zero3 /\ exists par per, project_call (data3 (1, 2, 3)) (PVec (data3 (0, 3, 4))) = Ok (Fin par, Fin per).
Proof.
  assert (H : (0, 3, 4) <> zero3) by (unfold zero3; intros E; injection E; intros; lra).
  split; [exact H|]. destruct (C30_projection_pythagoras (1, 2, 3) (0, 3, 4) H) as (a & b & E & _). eauto.
Qed.

(* ================================================================ C31 *)
Lemma zero_uv : unit_vector (data3 zero3) = (NaN, NaN, NaN).
Proof.
  unfold unit_vector, vbuild. rewrite vmag_data3. rewrite (proj2 (norm3_zero zero3) eq_refl).
  cbn [data3 zero3 vcomp]. change (adiv (Fin 0) (Fin 0)) with (xdiv (Fin 0) (Fin 0)).
  unfold xdiv. assert (E : Reqb 0 0 = true) by (apply Reqb_true; reflexivity). rewrite E.
  unfold inf_sign. assert (E2 : Rltb 0 0 = false) by (apply Rltb_false; lra). rewrite E2. reflexivity.
Qed.
Lemma nan_uv (b : vec XR) : has_nan b -> unit_vector b = (NaN, NaN, NaN).
Proof.
  intros H. unfold unit_vector, vbuild. rewrite C29_missing_component by exact H. rewrite !nan_div_r. reflexivity.
Qed.
Lemma sum_skip_3nan : sum_skip [NaN; NaN; NaN] = Fin 0.
Proof. exact (sum_skip_nan [0; 0; 0]). Qed.
(** What the code does: a missing or undefined direction gives the numbers 0 and 0, for every vector. *)
Theorem C31_undefined_direction_gives_zero_partial :
  forall (v b : vec XR), b = data3 zero3 \/ has_nan b ->
  project_call v (PVec b) = Ok (Fin 0, Fin 0) /\ cos_theta_call v (PVec b) = Ok (Fin 0) /\
  cos_theta_call b (PVec v) = Ok (Fin 0).
Proof.
  intros v b H. assert (U : unit_vector b = (NaN, NaN, NaN)).
  { destruct H as [->|H]; [apply zero_uv|apply nan_uv, H]. }
  unfold project_call, cos_theta_call, project_par, project_per, cos_theta, vdot_skip. rewrite U.
  destruct v as [[x y] z]. cbn [vcomp]. repeat (rewrite nan_mul_l || rewrite nan_mul_r). rewrite sum_skip_3nan.
  unfold vbuild. cbn [vcomp]. repeat (rewrite nan_mul_l || rewrite nan_mul_r). rewrite !nan_sub_r.
  unfold sumsq_skip. cbn [vcomp]. change (asq NaN) with NaN. rewrite sum_skip_3nan.
  rewrite fin_sqrt by lra. rewrite sqrt_0. auto.
Qed.
Print Assumptions C31_undefined_direction_gives_zero_partial.
(** So the claim is false: projecting a finite vector on the zero field is not missing but (0, 0), and
    does not even satisfy Pythagoras. *)
Theorem C31_undefined_direction_refuted :
  exists v par per, project_call (data3 v) (PVec (data3 zero3)) = Ok (Fin par, Fin per) /\
    par ^ 2 + per ^ 2 <> dot3 v v.
Proof.
  exists (1, 0, 0), 0, 0. split; [|simpl; lra].
  exact (proj1 (C31_undefined_direction_gives_zero_partial (data3 (1, 0, 0)) (data3 zero3) (or_introl eq_refl))).
Qed.
Print Assumptions C31_undefined_direction_refuted.
(** With a missing component in the projected vector, that component counts as 0. *)
Theorem C31_missing_component_ignored_refuted :
  exists b : vec3, b <> zero3 /\ project_par (NaN, Fin 1, Fin 0) (data3 b) = Fin 1.
Proof.
  exists (0, 1, 0). assert (H : (0, 1, 0) <> zero3) by (unfold zero3; intros E; injection E; intros; lra).
  split; [exact H|]. unfold project_par. rewrite uv_data3 by exact H.
  assert (N : norm3 (0, 1, 0) = 1).
  { unfold norm3. simpl. replace (0 * 0 + 1 * 1 + 0 * 0) with 1 by ring. apply sqrt_1. }
  rewrite N. cbn [scale3 data3]. unfold vdot_skip. cbn [vcomp]. rewrite nan_mul_l, !fin_mul.
  unfold sum_skip. cbn [fold_left]. rewrite !fin_isnan. change (aisnan NaN) with true. cbv iota.
  rewrite fin_a0, !fin_add. f_equal. field.
Qed.
Print Assumptions C31_missing_component_ignored_refuted.

(* ================================================================ C32 *)
Theorem C32_cos_theta :
  forall u v : vec3, u <> zero3 -> v <> zero3 ->
  exists c, cos_theta_call (data3 u) (PVec (data3 v)) = Ok (Fin c) /\ cos_theta_call (data3 v) (PVec (data3 u)) = Ok (Fin c) /\
    c * (norm3 u * norm3 v) = dot3 u v /\ -1 <= c <= 1 /\
    (c = 1 <-> exists k, 0 < k /\ v = scale3 k u) /\ (c = -1 <-> exists k, k < 0 /\ v = scale3 k u).
Proof.
  intros u v HU HV. assert (NU : norm3 u <> 0) by (rewrite norm3_zero; exact HU).
  assert (NV : norm3 v <> 0) by (rewrite norm3_zero; exact HV).
  pose proof (unit_dot u HU) as U1. pose proof (unit_dot v HV) as V1.
  exists (dot3 (scale3 (/ norm3 u) u) (scale3 (/ norm3 v) v)).
  unfold cos_theta_call, cos_theta. rewrite !uv_data3, !vdot_data3 by assumption.
  set (a := scale3 (/ norm3 u) u) in *. set (b := scale3 (/ norm3 v) v) in *.
  assert (SY : dot3 b a = dot3 a b) by (destruct a as [[? ?] ?], b as [[? ?] ?]; simpl; ring).
  split; [reflexivity|]. split; [rewrite SY; reflexivity|].
  assert (EA : u = scale3 (norm3 u) a).
  { unfold a. destruct u as [[x y] z]. simpl. set (n := norm3 (x, y, z)) in *. clearbody n.
    f_equal; [f_equal|]; field; exact NU. }
  assert (EB : v = scale3 (norm3 v) b).
  { unfold b. destruct v as [[x y] z]. simpl. set (n := norm3 (x, y, z)) in *. clearbody n.
    f_equal; [f_equal|]; field; exact NV. }
  pose proof (norm3_pos u) as PU. pose proof (norm3_pos v) as PV.
  set (nu := norm3 u) in *. set (nv := norm3 v) in *.
  assert (DV : dot3 u v = nu * nv * dot3 a b).
  { rewrite EA, EB. destruct a as [[a1 a2] a3], b as [[b1 b2] b3]. simpl. ring. }
  split; [rewrite DV; ring|].
  assert (SQ1 : 0 <= 1 + 1 - 2 * dot3 a b).
  { rewrite <- U1 at 1. rewrite <- V1 at 1. clear. destruct a as [[a1 a2] a3], b as [[b1 b2] b3]. simpl.
    pose proof (Rle_0_sqr (a1 - b1)). pose proof (Rle_0_sqr (a2 - b2)). pose proof (Rle_0_sqr (a3 - b3)). unfold Rsqr in *. lra. }
  assert (SQ2 : 0 <= 1 + 1 + 2 * dot3 a b).
  { rewrite <- U1 at 1. rewrite <- V1 at 1. clear. destruct a as [[a1 a2] a3], b as [[b1 b2] b3]. simpl.
    pose proof (Rle_0_sqr (a1 + b1)). pose proof (Rle_0_sqr (a2 + b2)). pose proof (Rle_0_sqr (a3 + b3)). unfold Rsqr in *. lra. }
  split; [lra|].
  assert (SUM : forall p q r, p * p + q * q + r * r = 0 -> p = 0 /\ q = 0 /\ r = 0).
  { intros p q r E. repeat split; nra. }
  assert (ES : forall s, (s = 1 \/ s = -1) -> (dot3 a b = s <-> b = scale3 s a)).
  { intros s Hs. split.
    - intros E. clear -Hs E U1 V1 SUM. destruct a as [[a1 a2] a3], b as [[b1 b2] b3]. simpl in *.
      destruct (SUM (b1 - s * a1) (b2 - s * a2) (b3 - s * a3)) as (X & Y & Z).
      { transitivity ((b1 * b1 + b2 * b2 + b3 * b3) - 2 * s * (a1 * b1 + a2 * b2 + a3 * b3) + s * s * (a1 * a1 + a2 * a2 + a3 * a3)); [ring|].
        rewrite E, U1, V1. destruct Hs as [->| ->]; ring. }
      f_equal; [f_equal|]; lra.
    - intros ->. rewrite dot3_scale, U1. ring. }
  assert (SC : forall s, (s = 1 \/ s = -1) -> (b = scale3 s a <-> exists k, 0 < s * k /\ v = scale3 k u)).
  { intros s Hs. split.
    - intros E. exists (s * nv / nu). split.
      + replace (s * (s * nv / nu)) with ((s * s) * (nv / nu)) by (field; exact NU).
        assert (0 < nv / nu) by (apply Rdiv_lt_0_compat; lra). destruct Hs as [->| ->]; nra.
      + rewrite EB, E, EA. clear -NU. destruct a as [[a1 a2] a3]. simpl. f_equal; [f_equal|]; field; exact NU.
    - intros [k [Hk E]].
      assert (NVK : nv = s * k * nu).
      { apply Rsqr_inj; [exact PV|nra|]. unfold Rsqr. unfold nv. rewrite norm3_sq, E.
        replace (s * k * nu * (s * k * nu)) with (s * s * (k * k) * (nu * nu)) by ring.
        unfold nu. rewrite norm3_sq. clear -Hs. destruct u as [[x y] z]. simpl. destruct Hs as [->| ->]; ring. }
      assert (KN : k <> 0) by (intros ->; rewrite Rmult_0_r in Hk; lra).
      assert (SN : s <> 0) by (destruct Hs; lra).
      unfold b. fold nv. rewrite NVK, E. rewrite EA at 1. clear -NU KN SN Hs. destruct a as [[a1 a2] a3]. simpl.
      f_equal; [f_equal|]; destruct Hs as [->| ->]; field; auto. }
  split.
  - rewrite (ES 1), (SC 1) by auto. split; intros [k [Hk E]]; exists k; split; auto; lra.
  - rewrite (ES (-1)), (SC (-1)) by auto. split; intros [k [Hk E]]; exists k; split; auto; lra.
Qed.
Print Assumptions C32_cos_theta.

(* ================================================================ C33 *)
Lemma sqrt_ratio x y : x <> 0 -> sqrt (1 + Rsqr (y / x)) = sqrt (x * x + y * y) / Rabs x.
Proof.
  intros H. replace (1 + Rsqr (y / x)) with ((x * x + y * y) / Rsqr x) by (unfold Rsqr; field; exact H).
  rewrite sqrt_div_alt by (unfold Rsqr; nra). rewrite sqrt_Rsqr_abs. reflexivity.
Qed.
Lemma atan2_polar y x : x * x + y * y <> 0 ->
  sqrt (x * x + y * y) * cos (Ratan2 y x) = x /\ sqrt (x * x + y * y) * sin (Ratan2 y x) = y.
Proof.
  intros H. assert (P : 0 < x * x + y * y) by nra. pose proof (sqrt_lt_R0 _ P) as S.
  unfold Ratan2. destruct (Rltb 0 x) eqn:E1.
  - apply Rltb_true in E1. rewrite cos_atan, sin_atan, sqrt_ratio by lra. rewrite Rabs_right by lra.
    set (s := sqrt (x * x + y * y)) in *. clearbody s. split; field; lra.
  - apply Rltb_false in E1. destruct (Rltb x 0) eqn:E2.
    + apply Rltb_true in E2.
      assert (C : cos (atan (y / x)) = - x / sqrt (x * x + y * y)).
      { rewrite cos_atan, sqrt_ratio by lra. rewrite Rabs_left by lra. set (s := sqrt (x * x + y * y)) in *. clearbody s. field; lra. }
      assert (D : sin (atan (y / x)) = - y / sqrt (x * x + y * y)).
      { rewrite sin_atan, sqrt_ratio by lra. rewrite Rabs_left by lra. set (s := sqrt (x * x + y * y)) in *. clearbody s. field; lra. }
      set (s := sqrt (x * x + y * y)) in *. clearbody s.
      destruct (Rleb 0 y).
      * rewrite neg_cos, neg_sin, C, D. split; field; lra.
      * unfold Rminus. rewrite cos_plus, sin_plus, cos_neg, sin_neg, cos_PI, sin_PI, C, D. split; field; lra.
    + apply Rltb_false in E2. assert (x = 0) by lra. subst x.
      replace (0 * 0 + y * y) with (Rsqr y) in * by (unfold Rsqr; ring). rewrite sqrt_Rsqr_abs in *.
      destruct (Rltb 0 y) eqn:E3.
      * apply Rltb_true in E3. rewrite cos_PI2, sin_PI2, Rabs_right by lra. split; ring.
      * apply Rltb_false in E3. destruct (Rltb y 0) eqn:E4.
        -- apply Rltb_true in E4. rewrite cos_neg, sin_neg, cos_PI2, sin_PI2, Rabs_left by lra. split; ring.
        -- apply Rltb_false in E4. exfalso. apply H. assert (y = 0) by lra. subst. unfold Rsqr. ring.
Qed.
Lemma atan_sign t : (0 <= t -> 0 <= atan t) /\ (t <= 0 -> atan t <= 0).
Proof.
  split; intros H.
  - destruct H as [H| <-]; [|rewrite atan_0; lra]. left. rewrite <- atan_0. apply atan_increasing, H.
  - destruct H as [H| ->]; [|rewrite atan_0; lra]. left. rewrite <- atan_0. apply atan_increasing, H.
Qed.
Lemma div_neg y x : x < 0 -> (0 <= y -> y / x <= 0) /\ (y < 0 -> 0 < y / x).
Proof.
  intros H. assert (I : / x < 0) by (apply Rinv_lt_0_compat, H). unfold Rdiv. split; intros; nra.
Qed.
Lemma atan2_range y x : - PI < Ratan2 y x <= PI.
Proof.
  pose proof PI_RGT_0 as P. unfold Ratan2. destruct (Rltb 0 x).
  - pose proof (atan_bound (y / x)). lra.
  - destruct (Rltb x 0) eqn:E2.
    + apply Rltb_true in E2. destruct (div_neg y x E2) as [D1 D2]. pose proof (atan_bound (y / x)).
      destruct (Rleb 0 y) eqn:E3.
      * apply Rleb_true in E3. specialize (D1 E3). apply atan_sign in D1. lra.
      * apply Rleb_false in E3. specialize (D2 E3).
        assert (0 < atan (y / x)) by (rewrite <- atan_0; apply atan_increasing, D2). lra.
    + destruct (Rltb 0 y); [lra|]. destruct (Rltb y 0); lra.
Qed.
(** atan2 with a non-negative second argument is an elevation; with a non-negative first argument an angle
    in [0, pi] *)
Lemma atan2_elevation z r : 0 <= r -> - (PI / 2) <= Ratan2 z r <= PI / 2.
Proof.
  intros H. pose proof PI_RGT_0. unfold Ratan2. destruct (Rltb 0 r).
  - pose proof (atan_bound (z / r)). lra.
  - destruct (Rltb r 0) eqn:E; [apply Rltb_true in E; lra|]. destruct (Rltb 0 z); [lra|]. destruct (Rltb z 0); lra.
Qed.
Lemma atan2_upper r z : 0 <= r -> 0 <= Ratan2 r z.
Proof.
  intros H. pose proof PI_RGT_0 as P. unfold Ratan2. destruct (Rltb 0 z) eqn:E1.
  - apply Rltb_true in E1. apply atan_sign. unfold Rdiv. assert (0 < / z) by (apply Rinv_0_lt_compat, E1). nra.
  - destruct (Rltb z 0) eqn:E2.
    + pose proof (atan_bound (r / z)). destruct (Rleb 0 r) eqn:E3; [lra|]. apply Rleb_false in E3. lra.
    + destruct (Rltb 0 r); [lra|]. destruct (Rltb r 0) eqn:E4; [apply Rltb_true in E4; lra|lra].
Qed.
(** two angles in [0, pi] with the same cosine are equal *)
Lemma complementary z r : 0 <= r -> r * r + z * z <> 0 -> Ratan2 z r + Ratan2 r z = PI / 2.
Proof.
  intros H N. destruct (atan2_polar z r N) as [C1 S1].
  assert (N' : z * z + r * r <> 0) by (rewrite Rplus_comm; exact N). destruct (atan2_polar r z N') as [C2 S2].
  rewrite Rplus_comm in C2. rewrite Rplus_comm in S2.
  assert (S : 0 < sqrt (r * r + z * z)) by (apply sqrt_lt_R0; nra).
  pose proof (atan2_elevation z r H) as B1. pose proof (atan2_upper r z H) as B2. pose proof (atan2_range r z) as B3.
  assert (EQ : cos (Ratan2 r z) = cos (PI / 2 - Ratan2 z r)).
  { rewrite cos_shift. apply (Rmult_eq_reg_l (sqrt (r * r + z * z))); [|lra]. rewrite C2, S1. reflexivity. }
  apply (f_equal acos) in EQ. rewrite !acos_cos in EQ by lra. lra.
Qed.
Lemma rad2deg_fin t : rad2deg (Fin t) = Fin (t * 180 / PI).
Proof.
  unfold rad2deg. change (tpi : XR) with (Fin PI). rewrite fin_ofZ, fin_div, fin_mul by (pose proof PI_RGT_0; lra).
  f_equal. field. apply PI_neq0.
Qed.
Lemma vrho_data3 x y z : vrho (data3 (x, y, z)) = Fin (sqrt (x * x + y * y)).
Proof.
  unfold vrho. cbn [data3]. rewrite !fin_sq. change [Fin (x * x); Fin (y * y)] with (map Fin [x * x; y * y]).
  rewrite sum_strict_fin. simpl Rsum. rewrite fin_sqrt by nra. do 2 f_equal. ring.
Qed.
(** degrees to radians *)
Definition rad (d : R) : R := d * PI / 180.
Lemma rad_deg t : rad (t * 180 / PI) = t.
Proof. unfold rad. field. apply PI_neq0. Qed.

(** The three angles the code returns, for every vector but 0. Its [longitude] is the azimuth; its
    [colatitude] is the elevation above the x-y plane, and its [latitude] the angle from the z axis: the
    two names are exchanged. *)
Theorem C33_spherical_angles_partial :
  forall x y z, (x, y, z) <> zero3 ->
  exists lon lat colat,
    vlongitude (data3 (x, y, z)) = Fin lon /\ vlatitude (data3 (x, y, z)) = Fin lat /\ vcolatitude (data3 (x, y, z)) = Fin colat /\
    -180 < lon <= 180 /\ 0 <= lat <= 180 /\ -90 <= colat <= 90 /\ lat + colat = 90 /\
    z = norm3 (x, y, z) * sin (rad colat) /\
    x = norm3 (x, y, z) * cos (rad colat) * cos (rad lon) /\
    y = norm3 (x, y, z) * cos (rad colat) * sin (rad lon).
Proof.
  intros x y z H. pose proof PI_RGT_0 as P.
  assert (NZ : norm3 (x, y, z) <> 0) by (rewrite norm3_zero; exact H). pose proof (norm3_sq (x, y, z)) as Q. cbn [dot3] in Q.
  assert (RR : sqrt (x * x + y * y) * sqrt (x * x + y * y) = x * x + y * y) by (apply sqrt_sqrt; nra).
  pose proof (sqrt_pos (x * x + y * y)) as RP. set (r := sqrt (x * x + y * y)) in *.
  assert (N : r * r + z * z <> 0) by (rewrite RR, <- Q; nra).
  assert (NE : sqrt (r * r + z * z) = norm3 (x, y, z)).
  { unfold norm3. f_equal. rewrite RR. simpl. ring. }
  exists (Ratan2 y x * 180 / PI), (Ratan2 r z * 180 / PI), (Ratan2 z r * 180 / PI).
  unfold vlongitude, vlatitude, vcolatitude. cbn [data3].
  pose proof (vrho_data3 x y z) as VR. cbn [data3] in VR. fold r in VR. rewrite VR.
  assert (AT : forall a b, tatan2 (Fin a) (Fin b) = Fin (Ratan2 a b)) by reflexivity.
  rewrite !AT, !rad2deg_fin, !rad_deg.
  destruct (atan2_polar z r N) as [C1 S1]. rewrite NE in C1, S1.
  pose proof (atan2_range y x) as B1. pose proof (atan2_upper r z RP) as B2. pose proof (atan2_range r z) as B3.
  pose proof (atan2_elevation z r RP) as B4. pose proof (complementary z r RP N) as CO.
  assert (DEG : forall t a, t <= a -> t * 180 / PI <= a * 180 / PI).
  { intros t a Ht. unfold Rdiv. apply Rmult_le_compat_r; [left; apply Rinv_0_lt_compat, P|lra]. }
  assert (DEGL : forall t a, t < a -> t * 180 / PI < a * 180 / PI).
  { intros t a Ht. unfold Rdiv. apply Rmult_lt_compat_r; [apply Rinv_0_lt_compat, P|lra]. }
  split; [reflexivity|]. split; [reflexivity|]. split; [reflexivity|].
  split. { destruct B1 as [B1 B1']. apply DEGL in B1. apply DEG in B1'.
           replace (- PI * 180 / PI) with (-180) in B1 by (field; lra). replace (PI * 180 / PI) with 180 in B1' by (field; lra). lra. }
  split. { apply DEG in B2. destruct B3 as [_ B3]. apply DEG in B3.
           replace (0 * 180 / PI) with 0 in B2 by (field; lra). replace (PI * 180 / PI) with 180 in B3 by (field; lra). lra. }
  split. { destruct B4 as [B4 B4']. apply DEG in B4. apply DEG in B4'.
           replace (- (PI / 2) * 180 / PI) with (-90) in B4 by (field; lra). replace (PI / 2 * 180 / PI) with 90 in B4' by (field; lra). lra. }
  split. { replace (Ratan2 r z * 180 / PI + Ratan2 z r * 180 / PI) with ((Ratan2 z r + Ratan2 r z) * 180 / PI) by (field; lra).
           rewrite CO. field. lra. }
  split; [symmetry; exact S1|]. rewrite C1.
  destruct (Req_dec (x * x + y * y) 0) as [Z0|NZ0].
  - assert (x = 0) by nra. assert (y = 0) by nra. assert (R0 : r = 0) by (unfold r; rewrite Z0; apply sqrt_0).
    rewrite R0, !Rmult_0_l. split; assumption.
  - destruct (atan2_polar y x NZ0) as [C3 S3]. fold r in C3, S3. split; symmetry; assumption.
Qed.
Print Assumptions C33_spherical_angles_partial.
(** So the claim is false: the "latitude" of the pole is 0 and the "colatitude" of the pole is 90. *)
Theorem C33_latitude_is_elevation_refuted :
  vlatitude (data3 (0, 0, 1)) = Fin 0 /\ vcolatitude (data3 (0, 0, 1)) = Fin 90.
Proof.
  pose proof PI_RGT_0 as P. unfold vlatitude, vcolatitude. cbn [data3].
  pose proof (vrho_data3 0 0 1) as VR. cbn [data3] in VR. rewrite VR.
  replace (0 * 0 + 0 * 0) with 0 by ring. rewrite sqrt_0.
  assert (AT : forall a b, tatan2 (Fin a) (Fin b) = Fin (Ratan2 a b)) by reflexivity.
  rewrite !AT, !rad2deg_fin. unfold Ratan2.
  assert (E1 : Rltb 0 1 = true) by (apply Rltb_true; lra). assert (E2 : Rltb 0 0 = false) by (apply Rltb_false; lra).
  rewrite E1, E2. replace (0 / 1) with 0 by field. rewrite atan_0. split; f_equal; field; lra.
Qed.
Print Assumptions C33_latitude_is_elevation_refuted.
(** A missing component makes the angles that use it missing. *)
Theorem C33_missing_component :
  forall v : vec XR, has_nan v -> vlatitude v = NaN /\ vcolatitude v = NaN.
Proof.
  intros [[x y] z] H.
  assert (G : forall a, rad2deg (tatan2 NaN a) = NaN /\ rad2deg (tatan2 a NaN) = NaN).
  { intros a. assert (E1 : tatan2 NaN a = NaN) by reflexivity. assert (E2 : tatan2 a NaN = NaN) by (destruct a; reflexivity).
    rewrite E1, E2. unfold rad2deg. rewrite nan_mul_l. auto. }
  assert (RN : x = NaN \/ y = NaN -> vrho (x, y, z) = NaN).
  { intros HN. unfold vrho. rewrite sum_strict_nan; [reflexivity|].
    destruct HN as [-> | ->]; [left; reflexivity|right; left; reflexivity]. }
  unfold vlatitude, vcolatitude. destruct H as [H|[H|H]].
  - rewrite RN by auto. split; apply G.
  - rewrite RN by auto. split; apply G.
  - subst z. split; apply G.
Qed.
Print Assumptions C33_missing_component.

(* ================================================================ C34 *)
Open Scope string_scope.
(** A spacecraft is accepted iff its table has rows on a time index and the three position columns, no
    repeated position/velocity/Carrington column, and its frame and name, upper-cased, are known; it then
    reports them upper-cased. *)
Theorem C34_frame_and_name :
  forall fr n,
  (forall f' n', set_frame_name fr n = Ok (f', n') <->
     f' = upper fr /\ n' = upper n /\ In (upper fr) ["GSE"; "HCI"] /\ In (upper n) ["WIND"; "PSP"]) /\
  (~ (In (upper fr) ["GSE"; "HCI"] /\ In (upper n) ["WIND"; "PSP"]) -> set_frame_name fr n = Err NotImplementedError).
Proof.
  intros fr n. unfold set_frame_name.
  destruct (mem_str (upper fr) ["GSE"; "HCI"]) eqn:M1; [apply mem_str_In in M1|apply mem_str_not in M1]; cbn [negb].
  - destruct (mem_str (upper n) ["WIND"; "PSP"]) eqn:M2; [apply mem_str_In in M2|apply mem_str_not in M2]; cbn [negb].
    + split; [|intros H; exfalso; apply H; auto]. intros f' n'. split.
      * intros H. injection H as <- <-. auto.
      * intros (-> & -> & _). reflexivity.
    + split; [|reflexivity]. intros f' n'. split; [discriminate|]. intros (_ & _ & _ & H). contradiction.
  - split; [|reflexivity]. intros f' n'. split; [discriminate|]. intros (_ & _ & H & _). contradiction.
Qed.
Print Assumptions C34_frame_and_name.

Definition sc_wanted : list key :=
  [("pos", "x", ""); ("pos", "y", ""); ("pos", "z", ""); ("v", "x", ""); ("v", "y", ""); ("v", "z", "");
   ("carr", "lat", ""); ("carr", "lon", "")].
Lemma xs_loc_ok m cs cols : NoDup cols -> NoDup cs -> cs <> [] ->
  (forall c, In c cs -> In (m, c, "") cols) -> xs_loc m cs cols = Ok (map (fun c => (m, c, "")) cs).
Proof.
  intros ND NC NE H. unfold xs_loc.
  assert (E1 : has_label kM m cols = true).
  { destruct cs as [|c l]; [contradiction|]. apply has_label_In. exists (m, c, ""). split; [apply H; left; reflexivity|reflexivity]. }
  assert (E2 : forallb (fun c => mem_key (m, c, "") cols) cs = true).
  { apply forallb_forall. intros c Hc. apply mem_key_In, H, Hc. }
  rewrite E1, E2. cbn [negb].
  assert (F : forall c, In c cs -> filter (key_eqb (m, c, "")) cols = [(m, c, "")]).
  { intros c Hc. specialize (H c Hc). clear -ND H. induction cols as [|k cols IH]; [destruct H|].
    inversion ND as [|? ? N1 N2]; subst. cbn [filter].
    assert (Z : forall l, ~ In (m, c, "") l -> filter (key_eqb (m, c, "")) l = []).
    { induction l as [|k' l IHl]; intros N; [reflexivity|]. cbn [filter].
      destruct (key_eqb (m, c, "") k') eqn:E; [apply key_eqb_eq in E; subst; exfalso; apply N; left; reflexivity|].
      apply IHl. intros X; apply N; right; exact X. }
    destruct (key_eqb (m, c, "") k) eqn:E.
    - apply key_eqb_eq in E. subst k. rewrite Z by exact N1. reflexivity.
    - destruct H as [H|H]; [subst k|exact (IH N2 H)].
      assert (X : key_eqb (m, c, "") (m, c, "") = true) by (apply key_eqb_eq; reflexivity). congruence. }
  assert (E3 : flat_map (fun c => filter (key_eqb (m, c, "")) cols) cs = map (fun c => (m, c, "")) cs).
  { clear -F. induction cs as [|c cs IH]; [reflexivity|]. cbn [flat_map map]. rewrite F by (left; reflexivity).
    cbn [app]. f_equal. apply IH. intros x Hx. apply F. right; exact Hx. }
  rewrite E3, map_length, Nat.eqb_refl. reflexivity.
Qed.
Lemma xs_loc_missing m cs cols : (exists c, In c cs /\ ~ In (m, c, "") cols) -> xs_loc m cs cols = Err KeyError.
Proof.
  intros [c [Hc N]]. unfold xs_loc. destruct (has_label kM m cols); [|reflexivity]. cbn [negb].
  assert (E2 : forallb (fun c => mem_key (m, c, "") cols) cs = false).
  { apply not_true_iff_false. rewrite forallb_forall. intros X. specialize (X c Hc). apply mem_key_In in X. contradiction. }
  rewrite E2. reflexivity.
Qed.
Lemma xs_opt_cases m cs cols : NoDup cols -> NoDup cs -> cs <> [] ->
  exists l, xs_optional m cs cols = Ok l /\
    (l = map (fun c => (m, c, "")) cs /\ (forall c, In c cs -> In (m, c, "") cols) \/
     l = [] /\ exists c, In c cs /\ ~ In (m, c, "") cols).
Proof.
  intros ND NC NE. destruct (forallb (fun c => mem_key (m, c, "") cols) cs) eqn:E.
  - rewrite forallb_forall in E. assert (H : forall c, In c cs -> In (m, c, "") cols) by (intros c Hc; apply mem_key_In, E, Hc).
    exists (map (fun c => (m, c, "")) cs). unfold xs_optional. rewrite xs_loc_ok by assumption. auto.
  - assert (H : exists c, In c cs /\ ~ In (m, c, "") cols).
    { clear -E. induction cs as [|c cs IH]; [discriminate|]. cbn [forallb] in E.
      destruct (mem_key (m, c, "") cols) eqn:M.
      - destruct (IH E) as [c' [H1 H2]]. exists c'. split; [right; exact H1|exact H2].
      - exists c. split; [left; reflexivity|]. apply mem_key_not, M. }
    exists []. unfold xs_optional. rewrite xs_loc_missing by exact H. auto.
Qed.
Theorem C34_spacecraft_accepted :
  forall (T : Type) (A : Arith T) (data : frame T) n fr, NoDup (f_cols data) ->
  f_rows data <> [] -> f_dt data = true -> (forall c, In c ["x"; "y"; "z"] -> In ("pos", c, "") (f_cols data)) ->
  In (upper fr) ["GSE"; "HCI"] -> In (upper n) ["WIND"; "PSP"] ->
  exists sc, make_spacecraft data n fr = Ok sc /\ sc_name sc = upper n /\ sc_frame sc = upper fr /\
    f_rows (sc_data sc) = f_rows data /\
    (* exactly the position, and velocity / Carrington coordinates when complete *)
    forall k, In k (f_cols (sc_data sc)) <->
      In k [("pos", "x", ""); ("pos", "y", ""); ("pos", "z", "")] \/
      (In k [("v", "x", ""); ("v", "y", ""); ("v", "z", "")] /\
        forall c, In c ["x"; "y"; "z"] -> In ("v", c, "") (f_cols data)) \/
      (In k [("carr", "lat", ""); ("carr", "lon", "")] /\
        forall c, In c ["lat"; "lon"] -> In ("carr", c, "") (f_cols data)).
Proof.
  intros T A data n fr ND HR HD HP HF HN.
  assert (NX : NoDup ["x"; "y"; "z"]) by (repeat constructor; simpl; intuition discriminate).
  assert (NL : NoDup ["lat"; "lon"]) by (repeat constructor; simpl; intuition discriminate).
  destruct (xs_opt_cases "v" ["x"; "y"; "z"] (f_cols data) ND NX ltac:(discriminate)) as (lv & EV & CV).
  destruct (xs_opt_cases "carr" ["lat"; "lon"] (f_cols data) ND NL ltac:(discriminate)) as (lc & ECC & CC).
  assert (E : exists d, sc_set_data data = Ok d /\ f_rows d = f_rows data /\
    f_cols d = sort_by key_leb (map (fun c => ("pos", c, "")) ["x"; "y"; "z"] ++ lv ++ lc)).
  { unfold sc_set_data. rewrite f_empty_cols; [|intros E0; specialize (HP "x" (or_introl eq_refl)); rewrite E0 in HP; destruct HP|exact HR].
    rewrite xs_loc_ok by (assumption || discriminate). cbn [bind]. rewrite EV. cbn [bind]. rewrite ECC. cbn [bind]. rewrite HD.
    eexists. split; [reflexivity|]. split; reflexivity. }
  destruct E as (d & Hd & ER & EC). exists {| sc_data := d; sc_name := upper n; sc_frame := upper fr |}.
  unfold make_spacecraft. rewrite Hd. cbn [bind].
  rewrite (proj2 (proj1 (C34_frame_and_name fr n) (upper fr) (upper n))) by auto. cbn [bind fst snd sc_name sc_frame sc_data].
  split; [reflexivity|]. split; [reflexivity|]. split; [reflexivity|]. split; [exact ER|].
  intros k. rewrite EC, sort_by_In, !in_app_iff. cbn [map].
  assert (KV : In k lv <-> In k [("v", "x", ""); ("v", "y", ""); ("v", "z", "")] /\ (forall c, In c ["x"; "y"; "z"] -> In ("v", c, "") (f_cols data))).
  { destruct CV as [[-> HA]|[-> [c [Hc HX]]]]; [cbn [map]; tauto|]. split; [intros []|]. intros [_ HA]. exact (HX (HA c Hc)). }
  assert (KC : In k lc <-> In k [("carr", "lat", ""); ("carr", "lon", "")] /\ (forall c, In c ["lat"; "lon"] -> In ("carr", c, "") (f_cols data))).
  { destruct CC as [[-> HA]|[-> [c [Hc HX]]]]; [cbn [map]; tauto|]. split; [intros []|]. intros [_ HA]. exact (HX (HA c Hc)). }
  rewrite KV, KC. reflexivity.
Qed.
Print Assumptions C34_spacecraft_accepted.
(** What is rejected, and how. *)
Theorem C34_spacecraft_rejected :
  forall (T : Type) (A : Arith T) (data : frame T) n fr,
  (f_rows data = [] -> make_spacecraft data n fr = Err ValueError) /\
  (f_rows data <> [] -> f_cols data <> [] -> (exists c, In c ["x"; "y"; "z"] /\ ~ In ("pos", c, "") (f_cols data)) ->
     make_spacecraft data n fr = Err KeyError) /\
  (f_dt data = false -> forall sc, make_spacecraft data n fr <> Ok sc) /\
  (~ (In (upper fr) ["GSE"; "HCI"] /\ In (upper n) ["WIND"; "PSP"]) -> forall sc, make_spacecraft data n fr <> Ok sc).
Proof.
  intros T A data n fr. split; [|split; [|split]].
  - intros H. unfold make_spacecraft, sc_set_data, f_empty. rewrite H. destruct (f_cols data); reflexivity.
  - intros HR HC HX. unfold make_spacecraft, sc_set_data. rewrite f_empty_cols by assumption.
    rewrite xs_loc_missing by exact HX. reflexivity.
  - intros HD sc. unfold make_spacecraft, sc_set_data. rewrite HD. destruct (f_empty data); [discriminate|].
    destruct (xs_loc _ _ _); [|discriminate]. cbn [bind]. destruct (xs_optional "v" _ _); [|discriminate]. cbn [bind].
    destruct (xs_optional "carr" _ _); discriminate.
  - intros HX sc. unfold make_spacecraft. destruct (sc_set_data data); [|discriminate]. cbn [bind].
    rewrite (proj2 (C34_frame_and_name fr n) HX). discriminate.
Qed.
Print Assumptions C34_spacecraft_rejected.
(** The distance to the Sun is the Euclidean distance from the spacecraft to the Sun: in GSE coordinates
    (unit: Earth radius, Sun at (au, 0, 0)) and in HCI coordinates (unit: solar radius, Sun at 0). *)
Theorem C34_distance_to_sun :
  forall (au : R) (r : row XR) x y z, sc_position r = data3 (x, y, z) ->
  (exists d, distance2sun (Fin au) "GSE" r = Ok (Fin d) /\ 0 <= d /\
     d = norm3 (add3 (scale3 6378100 (x, y, z)) (scale3 (-1) (au, 0, 0)))) /\
  (exists d, distance2sun (Fin au) "HCI" r = Ok (Fin d) /\ 0 <= d /\ d = 695508000 * norm3 (x, y, z)).
Proof.
  intros au r x y z H.
  assert (NM : forall a b c, (asqrt (sum_skip [asq (Fin a); asq (Fin b); asq (Fin c)]) / u_distance2sun)%num = Fin (norm3 (a, b, c))).
  { intros a b c. rewrite !fin_sq. change [Fin (a * a); Fin (b * b); Fin (c * c)] with (map Fin [a * a; b * b; c * c]).
    rewrite sum_skip_fin. cbn [Rsum]. rewrite fin_sqrt by nra. unfold u_distance2sun. rewrite fin_ofZ, fin_div by lra.
    unfold norm3. f_equal. cbn [dot3]. replace (a * a + (b * b + (c * c + 0))) with (a * a + b * b + c * c) by ring. field. }
  split.
  - unfold distance2sun. rewrite H. cbn [data3]. change (String.eqb "GSE" "GSE") with true. cbv iota zeta.
    unfold c_Re. rewrite !fin_ofZ, !fin_mul, !fin_add, NM. eexists. split; [reflexivity|]. split; [apply norm3_pos|].
    unfold norm3. f_equal. simpl. ring.
  - unfold distance2sun. rewrite H. cbn [data3]. change (String.eqb "HCI" "GSE") with false. change (String.eqb "HCI" "HCI") with true.
    cbv iota zeta. unfold c_Rs. rewrite !fin_ofZ, !fin_mul, NM. eexists. split; [reflexivity|]. split; [apply norm3_pos|].
    apply Rsqr_inj; [apply norm3_pos|pose proof (norm3_pos (x, y, z)); lra|]. unfold Rsqr.
    replace (695508000 * norm3 (x, y, z) * (695508000 * norm3 (x, y, z))) with (695508000 * 695508000 * (norm3 (x, y, z) * norm3 (x, y, z))) by ring.
    rewrite !norm3_sq. simpl. ring.
Qed.
Print Assumptions C34_distance_to_sun.
(** A missing position component counts as 0 in that sum instead of making the distance missing. *)
Theorem C34_missing_position_refuted :
  exists r : row XR, has_nan (sc_position r) /\ distance2sun (Fin 1) "HCI" r = Ok (Fin 0).
Proof.
  exists (fun _ => NaN). split; [left; reflexivity|].
  unfold distance2sun, sc_position. change (String.eqb "HCI" "GSE") with false. change (String.eqb "HCI" "HCI") with true.
  cbv iota zeta. rewrite !nan_mul_l. change (asq NaN) with NaN. rewrite sum_skip_3nan, fin_sqrt by lra.
  unfold u_distance2sun. rewrite fin_ofZ, fin_div by lra. rewrite sqrt_0. do 2 f_equal. field.
Qed.
Print Assumptions C34_missing_position_refuted.
Example C34_ex : exists sc : spacecraft XR,
  make_spacecraft (mkFrame [("pos", "y", ""); ("pos", "x", ""); ("pos", "z", ""); ("carr", "lat", "")] true [(1%Z, fun _ => Fin 2)]) "psp" "hci" = Ok sc
  /\ sc_name sc = "PSP" /\ List.length (f_cols (sc_data sc)) = 3%nat.
Proof. eexists. split; [vm_compute; reflexivity|]. split; reflexivity. Qed.
