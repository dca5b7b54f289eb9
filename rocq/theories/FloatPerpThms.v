(** The perpendicular projection of core/vector.py in double precision. *)
From Coq Require Import Reals Lra List Bool ZArith Lia Psatz String.
From Flocq Require Import Core.Core Relative Plus_error IEEE754.BinarySingleNaN.
From Verif Require Import Py Num NumB64 Frame Plasma Alfven Float64Thms FloatErrorThms FloatAlfvenThms FloatUnitThms PlasmaMore.
Import ListNotations.
Open Scope R_scope.

Definition tiny : R := bpow radix2 (-1000).
Lemma rnd_err r : Rabs (rnd r - r) <= bpow radix2 (-53) * Rabs r + tiny.
Proof.
  destruct (error_N_FLT radix2 (-1074) 53 ltac:(lia) (fun z => negb (Z.even z)) r) as [eps [eta [E1 [E2 [_ V]]]]].
  change (round radix2 (FLT_exp (-1074) 53) ZnearestE r) with (rnd r) in V. rewrite V. replace (r * (1 + eps) + eta - r) with (eps * r + eta) by ring.
  apply Rle_trans with (1 := Rabs_triang _ _). rewrite Rabs_mult. apply Rplus_le_compat.
  - apply Rmult_le_compat_r; [apply Rabs_pos|]. apply Rle_trans with (1 := E1). change (bpow radix2 (- (53) + 1)) with (bpow radix2 (-52)). change (bpow radix2 (-52)) with (/ 4503599627370496). change (bpow radix2 (-53)) with (/ 9007199254740992). lra.
  - apply Rle_trans with (1 := E2). apply Rle_trans with (bpow radix2 (-1074)); [pose proof (bpow_gt_0 radix2 (-1074)); lra|]. apply bpow_le. lia.
Qed.
Lemma rnd_big r : Rabs r <= bpow radix2 1000 -> Rabs (rnd r) < bpow radix2 1024.
Proof.
  intro L. assert (Rabs (rnd r) <= bpow radix2 1000) by (apply abs_round_le_generic; [apply _|apply _|apply generic_format_bpow; unfold SpecFloat.fexp, SpecFloat.emin; lia|exact L]).
  pose proof (bpow_lt radix2 1000 1024 ltac:(lia)). lra.
Qed.
Lemma mul_err (x y : b64) : is_finite x = true -> is_finite y = true -> Rabs (B2R x * B2R y) <= bpow radix2 1000 ->
  is_finite (amul x y) = true /\ Rabs (B2R (amul x y) - B2R x * B2R y) <= bpow radix2 (-53) * Rabs (B2R x * B2R y) + tiny.
Proof.
  intros Fx Fy L. destruct (mul_fin x y Fx Fy) as [[_ [F V]]|[B _]]; [|pose proof (rnd_big _ L); lra]. split; [exact F|]. rewrite V. apply rnd_err.
Qed.
Lemma sub_err (x y : b64) : is_finite x = true -> is_finite y = true -> Rabs (B2R x - B2R y) <= bpow radix2 1000 ->
  is_finite (asub x y) = true /\ Rabs (B2R (asub x y) - (B2R x - B2R y)) <= bpow radix2 (-53) * Rabs (B2R x - B2R y).
Proof.
  intros Fx Fy L. destruct (FLT_plus_error_N_ex radix2 (-1074) 53 (fun z => negb (Z.even z)) (B2R x) (- B2R y) (generic_format_B2R 53 1024 x) (generic_format_opp _ _ _ (generic_format_B2R 53 1024 y))) as [eps [He Ve]].
  change (round radix2 (FLT_exp (-1074) 53) ZnearestE (B2R x + - B2R y)) with (rnd (B2R x - B2R y)) in Ve.
  assert (U : bpow radix2 (-53) = / 9007199254740992) by reflexivity.
  assert (He' : Rabs eps <= bpow radix2 (-53)).
  { rewrite U. apply Rle_trans with (1 := He). assert (UR : u_ro radix2 53 = / 9007199254740992) by (unfold u_ro; change (bpow radix2 (- (53) + 1)) with (/ 4503599627370496); lra). rewrite UR. apply Rmult_le_reg_r with (1 + / 9007199254740992); [lra|]. unfold Rdiv. rewrite Rmult_assoc, Rinv_l by lra. lra. }
  destruct (sub_fin x y Fx Fy) as [[_ [F V]]|[B _]]; [|pose proof (rnd_big _ L); lra].
  split; [exact F|]. rewrite V, Ve. replace ((B2R x + - B2R y) * (1 + eps) - (B2R x - B2R y)) with (eps * (B2R x - B2R y)) by ring. rewrite Rabs_mult. apply Rmult_le_compat_r; [apply Rabs_pos|exact He'].
Qed.

(* ------------------------------------------------------------------ lengths of triples of numbers *)
Definition norm3 (a b c : R) : R := sqrt (a * a + b * b + c * c).
Lemma norm3_sq a b c : norm3 a b c * norm3 a b c = a * a + b * b + c * c. Proof. apply sqrt_sqrt. nra. Qed.
Lemma norm3_pos a b c : 0 <= norm3 a b c. Proof. apply sqrt_pos. Qed.
Lemma square_le a b : 0 <= b -> a * a <= b * b -> a <= b. Proof. intros Hb H. destruct (Rle_or_lt a b) as [L|L]; [exact L|]. nra. Qed.
Lemma norm3_tri a b c x y z : norm3 (a + x) (b + y) (c + z) <= norm3 a b c + norm3 x y z.
Proof.
  pose proof (norm3_pos a b c) as P1. pose proof (norm3_pos x y z) as P2. apply square_le; [lra|]. rewrite norm3_sq.
  pose proof (norm3_sq a b c) as S1. pose proof (norm3_sq x y z) as S2. pose proof (cauchy a b c x y z) as C. fold (norm3 a b c) in C. fold (norm3 x y z) in C.
  pose proof (Rle_abs (a * x)). pose proof (Rle_abs (b * y)). pose proof (Rle_abs (c * z)).
  replace ((norm3 a b c + norm3 x y z) * (norm3 a b c + norm3 x y z)) with (norm3 a b c * norm3 a b c + norm3 x y z * norm3 x y z + 2 * (norm3 a b c * norm3 x y z)) by ring. rewrite S1, S2. nra.
Qed.
Lemma norm3_mono a b c x y z : Rabs a <= x -> Rabs b <= y -> Rabs c <= z -> norm3 a b c <= norm3 x y z.
Proof.
  intros A B C. apply sqrt_le_1_alt. assert (Q : forall s t, Rabs s <= t -> s * s <= t * t).
  { intros s t H. pose proof (Rabs_pos s). replace (s * s) with (Rabs s * Rabs s) by (rewrite <- Rabs_mult; apply Rabs_pos_eq, Rle_0_sqr). apply Rmult_le_compat; lra. }
  pose proof (Q _ _ A). pose proof (Q _ _ B). pose proof (Q _ _ C). lra.
Qed.
Lemma norm3_scale k a b c : 0 <= k -> norm3 (k * Rabs a) (k * Rabs b) (k * Rabs c) = k * norm3 a b c.
Proof.
  intro K. assert (S : forall t, Rabs t * Rabs t = t * t) by (intro t; rewrite <- Rabs_mult; apply Rabs_pos_eq, Rle_0_sqr).
  unfold norm3. replace (k * Rabs a * (k * Rabs a) + k * Rabs b * (k * Rabs b) + k * Rabs c * (k * Rabs c)) with ((k * k) * (a * a + b * b + c * c)) by (rewrite <- (S a), <- (S b), <- (S c); ring).
  rewrite sqrt_mult by nra. rewrite sqrt_square by exact K. reflexivity.
Qed.
Lemma norm3_near a b c x y z : Rabs (norm3 a b c - norm3 x y z) <= norm3 (a - x) (b - y) (c - z).
Proof.
  pose proof (norm3_tri x y z (a - x) (b - y) (c - z)) as H1. replace (x + (a - x)) with a in H1 by ring. replace (y + (b - y)) with b in H1 by ring. replace (z + (c - z)) with c in H1 by ring.
  pose proof (norm3_tri a b c (x - a) (y - b) (z - c)) as H2. replace (a + (x - a)) with x in H2 by ring. replace (b + (y - b)) with y in H2 by ring. replace (c + (z - c)) with z in H2 by ring.
  assert (E : norm3 (x - a) (y - b) (z - c) = norm3 (a - x) (b - y) (c - z)) by (unfold norm3; f_equal; ring). rewrite E in H2. apply Rabs_le. lra.
Qed.

(* ------------------------------------------------------------------ the root of a computed sum of squares *)
Lemma sumsq_err (x y z : b64) : is_finite x = true -> is_finite y = true -> is_finite z = true -> norm3 (B2R x) (B2R y) (B2R z) <= bpow radix2 400 ->
  let n := norm3 (B2R x) (B2R y) (B2R z) in
  is_finite (asqrt (sumsq_skip (x, y, z))) = true /\ Rabs (B2R (asqrt (sumsq_skip (x, y, z))) - n) <= 3 * bpow radix2 (-52) * n + bpow radix2 (-490).
Proof.
  intros Fx Fy Fz HN n. pose proof (norm3_sq (B2R x) (B2R y) (B2R z)) as NS. fold n in NS, HN. assert (N0 : 0 <= n) by apply norm3_pos. clearbody n.
  pose proof (Rle_0_sqr (B2R x)) as Qx. pose proof (Rle_0_sqr (B2R y)) as Qy. pose proof (Rle_0_sqr (B2R z)) as Qz. unfold Rsqr in *.
  assert (NN : n * n <= bpow radix2 800) by (change 800%Z with (400 + 400)%Z; rewrite bpow_plus; apply Rmult_le_compat; lra).
  assert (B8 : bpow radix2 800 * 16 <= bpow radix2 1000) by (change 16 with (bpow radix2 4); rewrite <- bpow_plus; apply bpow_le; lia).
  assert (T1 : 0 < tiny) by apply bpow_gt_0. assert (T2 : tiny <= bpow radix2 800) by (apply bpow_le; lia).
  pose proof u_small as [U1 U2].
  assert (SQ : forall t : b64, is_finite t = true -> B2R t * B2R t <= n * n -> aisnan (asq t) = false /\ is_finite (asq t) = true /\ 0 <= B2R (asq t) /\ Rabs (B2R (asq t) - B2R t * B2R t) <= bpow radix2 (-53) * (B2R t * B2R t) + tiny).
  { intros t Ft L. pose proof (Rle_0_sqr (B2R t)) as Q. unfold Rsqr in Q. destruct (mul_err t t Ft Ft) as [F E]; [rewrite Rabs_pos_eq by exact Q; lra|]. rewrite (Rabs_pos_eq (B2R t * B2R t) Q) in E. change (amul t t) with (asq t) in *.
    split; [apply fin_notnan, F|]. split; [exact F|]. split; [apply nonneg_B2R, nonneg_sq, fin_notnan, Ft|exact E]. }
  destruct (SQ x Fx ltac:(lra)) as [Ax [Gx [Px Ex]]]. destruct (SQ y Fy ltac:(lra)) as [Ay [Gy [Py Ey]]]. destruct (SQ z Fz ltac:(lra)) as [Az [Gz [Pz Ez]]]. clear SQ.
  unfold sumsq_skip, sum_skip. cbn [vcomp fold_left]. rewrite Ax, Ay, Az. destruct (add_zero_l a0 (asq x) (proj1 zero64) (proj2 zero64) Gx) as [Fs Vs]. set (s0 := aadd a0 (asq x)) in *.
  apply Rabs_le_inv in Ex, Ey, Ez. set (u := bpow radix2 (-53)) in *. set (X := B2R x * B2R x) in *. set (Y := B2R y * B2R y) in *. set (Z := B2R z * B2R z) in *.
  assert (UX : 0 <= u * X <= / 8 * X) by nra. assert (UY : 0 <= u * Y <= / 8 * Y) by nra. assert (UZ : 0 <= u * Z <= / 8 * Z) by nra.
  destruct (add_err s0 (asq y) Fs Gy) as [F1 E1]; [rewrite Vs, Rabs_pos_eq by lra; lra|]. set (s1 := aadd s0 (asq y)) in *. fold u in E1. rewrite Vs, (Rabs_pos_eq (_ + _)) in E1 by lra. apply Rabs_le_inv in E1.
  set (p := B2R (asq x) + B2R (asq y)) in *. assert (P0 : 0 <= p <= (1 + u) * (X + Y) + 2 * tiny) by (unfold p; lra). assert (UP : 0 <= u * p <= / 8 * p) by nra.
  destruct (add_err s1 (asq z) F1 Gz) as [F2 E2]; [rewrite Rabs_pos_eq by lra; lra|]. set (s2 := aadd s1 (asq z)) in *. fold u in E2. rewrite (Rabs_pos_eq (_ + _)) in E2 by lra. apply Rabs_le_inv in E2.
  set (q := B2R s2) in *. set (m := B2R s1 + B2R (asq z)) in *. assert (M0 : 0 <= m) by (unfold m; lra). assert (UM : 0 <= u * m <= / 8 * m) by nra.
  assert (NQ : n * n = X + Y + Z) by exact NS. set (N := n * n) in *.
  assert (UN : 0 <= u * N <= / 8 * N) by (split; [apply Rmult_le_pos; lra|apply Rmult_le_compat_r; lra]). assert (UUN : 0 <= u * (u * N) <= / 1024 * (u * N)) by (split; [apply Rmult_le_pos; lra|apply Rmult_le_compat_r; lra]).
  assert (UT : 0 <= u * tiny <= / 1024 * tiny) by (split; [apply Rmult_le_pos; lra|apply Rmult_le_compat_r; lra]).
  assert (UNE : u * N = u * X + u * Y + u * Z) by (rewrite NQ; ring).
  assert (PB : Rabs (p - (X + Y)) <= u * N + 2 * tiny) by (apply Rabs_le; unfold p; lra). apply Rabs_le_inv in PB.
  assert (UPB : u * p <= u * N + / 1024 * (u * N) + tiny) by (apply Rle_trans with (u * (N + u * N + 2 * tiny)); [apply Rmult_le_compat_l; lra|lra]).
  assert (MB : Rabs (m - N) <= u * N + u * p + 3 * tiny).
  { apply Rabs_le. unfold m, p in *. lra. }
  apply Rabs_le_inv in MB.
  assert (UMB : u * m <= u * N + / 256 * (u * N) + tiny) by (apply Rle_trans with (u * (N + (u * N + (u * N + / 1024 * (u * N) + tiny) + 3 * tiny))); [apply Rmult_le_compat_l; lra|lra]).
  assert (QB : Rabs (q - N) <= 4 * (u * N) + 6 * tiny) by (apply Rabs_le; lra). apply Rabs_le_inv in QB.
  assert (Q0 : 0 <= q) by lra.
  (* roots *)
  assert (ST : sqrt (6 * tiny) <= bpow radix2 (-498)).
  { apply square_le; [apply bpow_ge_0|]. rewrite sqrt_sqrt by lra. rewrite <- bpow_plus. unfold tiny. replace (-498 + -498)%Z with (4 + -1000)%Z by lia. rewrite (bpow_plus radix2 4). change (bpow radix2 4) with 16. pose proof (bpow_gt_0 radix2 (-1000)). lra. }
  pose proof (sqrt_pos (6 * tiny)) as ST0. set (st := sqrt (6 * tiny)) in *. assert (STS : st * st = 6 * tiny) by (apply sqrt_sqrt; lra). pose proof (sqrt_pos q) as R0. pose proof (sqrt_sqrt q Q0) as RS. set (r := sqrt q) in *.
  assert (Un : 0 <= u * n <= / 1024 * n) by (split; [apply Rmult_le_pos; lra|apply Rmult_le_compat_r; lra]).
  assert (RU : r <= n + 2 * (u * n) + st).
  { apply square_le; [lra|]. rewrite RS. apply Rle_trans with (N + 4 * (u * N) + 6 * tiny); [lra|]. rewrite <- STS. unfold N. assert (0 <= n * st) by (apply Rmult_le_pos; lra). assert (0 <= (u * n) * st) by (apply Rmult_le_pos; lra). assert (0 <= (u * n) * (u * n)) by (apply Rmult_le_pos; lra).
    replace ((n + 2 * (u * n) + st) * (n + 2 * (u * n) + st)) with (n * n + 4 * (u * (n * n)) + st * st + (4 * ((u * n) * (u * n)) + 2 * (n * st) + 4 * ((u * n) * st))) by ring. lra. }
  assert (RL : n - 4 * (u * n) <= r + st).
  { apply square_le; [lra|]. apply Rle_trans with (q + 6 * tiny).
    - apply Rle_trans with (N - 4 * (u * N)); [|lra]. unfold N. replace ((n - 4 * (u * n)) * (n - 4 * (u * n))) with (n * n - 4 * (u * (n * n)) - (4 * (u * n)) * (n - 4 * (u * n))) by ring. assert (0 <= (4 * (u * n)) * (n - 4 * (u * n))) by (apply Rmult_le_pos; lra). lra.
    - rewrite <- RS, <- STS. assert (0 <= r * st) by (apply Rmult_le_pos; lra). replace ((r + st) * (r + st)) with (r * r + st * st + 2 * (r * st)) by ring. lra. }
  destruct (Bsqrt_correct 53 1024 _ _ mode_NE s2) as [V1 [V2 _]]. change (Bsqrt mode_NE s2) with (asqrt s2) in *. split.
  - rewrite V2. assert (SN : nonneg s2) by (apply nonneg_of; [exact F2|exact Q0]). clear - F2 SN. destruct s2 as [s|s| |s m0 e0 H0]; try discriminate F2; [reflexivity|]. cbn in SN. rewrite SN. reflexivity.
  - rewrite sqrt_val. fold q. fold r. pose proof (rnd_err r) as RE. fold u in RE. rewrite (Rabs_pos_eq r) in RE by lra. apply Rabs_le_inv in RE.
    assert (Ur : u * r <= u * n + / 1024 * (u * n) + st) by (apply Rle_trans with (u * (n + 2 * (u * n) + st)); [apply Rmult_le_compat_l; lra|]; assert (u * (u * n) <= / 4096 * (u * n)) by (apply Rmult_le_compat_r; lra); assert (u * st <= 1 * st) by (apply Rmult_le_compat_r; lra); lra).
    assert (D : bpow radix2 (-52) = 2 * u) by (unfold u; change 2 with (bpow radix2 1); rewrite <- bpow_plus; reflexivity).
    assert (T3 : tiny <= bpow radix2 (-498)) by (apply bpow_le; lia). assert (T4 : bpow radix2 (-498) * 8 <= bpow radix2 (-490)) by (change 8 with (bpow radix2 3); rewrite <- bpow_plus; apply bpow_le; lia).
    rewrite D. apply Rabs_le. replace (3 * (2 * u) * n) with (6 * (u * n)) by ring. lra.
Qed.

(* ------------------------------------------------------------------ the perpendicular part *)
(** length of the part of [v] perpendicular to [w], by Pythagoras *)
Definition perp_len (v w : vec b64) : R := sqrt (dot v v - (dot v w / len w) * (dot v w / len w)).
Lemma unit_le1 w i : direction w -> (i < 3)%nat -> Rabs (comp i w / len w) <= 1.
Proof.
  intros D Hi. pose proof (len_pos w D) as P. unfold Rdiv. rewrite Rabs_mult, (Rabs_pos_eq (/ _)) by (apply Rlt_le, Rinv_0_lt_compat, P). apply (Rmult_le_reg_r (len w)); [exact P|]. rewrite Rmult_assoc, Rinv_l, Rmult_1_r, Rmult_1_l by lra.
  apply square_le; [lra|]. rewrite <- Rabs_mult, Rabs_pos_eq by apply Rle_0_sqr. unfold len. rewrite sqrt_sqrt by (apply Rlt_le, dot_self_pos, D). unfold dot. pose proof (Rle_0_sqr (comp 0 w)). pose proof (Rle_0_sqr (comp 1 w)). pose proof (Rle_0_sqr (comp 2 w)). unfold Rsqr in *.
  destruct i as [|[|[|i]]]; [lra..|lia].
Qed.
Lemma comp_len v i : direction v -> (i < 3)%nat -> Rabs (comp i v) <= len v.
Proof.
  intros D Hi. pose proof (unit_le1 v i D Hi) as H. pose proof (len_pos v D) as P. replace (comp i v) with (comp i v / len v * len v) by (field; lra). rewrite Rabs_mult, (Rabs_pos_eq (len v)) by lra. nra.
Qed.
(** one component of the perpendicular part *)
Lemma perp_comp v w i : direction v -> direction w -> (i < 3)%nat ->
  let c := asub (vcomp i v) (amul (vcomp i (unit_vector w)) (project_par v w)) in
  let u := comp i w / len w in
  is_finite c = true /\ Rabs (B2R c - (comp i v - u * (dot v w / len w))) <= 13 * bpow radix2 (-52) * len v * Rabs u + bpow radix2 (-53) * Rabs (comp i v).
Proof.
  intros Dv Dw Hi c u. pose proof (len_pos v Dv) as Pv. pose proof (len_pos w Dw) as Pw. pose proof (len_bound v Dv) as Lv. pose proof (near_range _ _ _ _ (mag_near v Dv)) as [Lv' _].
  destruct (C237_projection v w Dv Dw) as [Fp Ep]. pose proof (unit_snear w i Dw Hi) as SN. pose proof (snear_err 4 102 _ _ ltac:(lia) SN) as Eu. destruct SN as [Fu [_ SN]]. fold u in Eu, SN. replace (INR 4) with 4 in Eu by (cbn; lra).
  pose proof (unit_le1 w i Dw Hi) as U1. fold u in U1. pose proof (comp_len v i Dv Hi) as Cv. set (L := len v) in *. set (P := dot v w / len w) in *.
  assert (PL : Rabs P <= L).
  { unfold P, Rdiv. rewrite Rabs_mult, (Rabs_pos_eq (/ _)) by (apply Rlt_le, Rinv_0_lt_compat, Pw). apply (Rmult_le_reg_r (len w)); [exact Pw|]. rewrite Rmult_assoc, Rinv_l by lra. pose proof (dot_len v w). unfold L. lra. }
  set (uh := vcomp i (unit_vector w)) in *. set (ph := project_par v w) in *. pose proof u_small as [V1 V2]. assert (D : bpow radix2 (-52) = 2 * bpow radix2 (-53)) by (change 2 with (bpow radix2 1); rewrite <- bpow_plus; reflexivity).
  rewrite D in *. assert (B10 : L * 16 <= bpow radix2 1000) by (apply Rle_trans with (bpow radix2 52 * bpow radix2 4); [change (bpow radix2 4) with 16; lra|rewrite <- bpow_plus; apply bpow_le; lia]).
  assert (TU : u = 0 \/ tiny <= bpow radix2 (-53) * (/ 1024 * (L * Rabs u))).
  { destruct SN as [[_ Z]|N]; [left; exact Z|right]. destruct (near_range _ _ _ _ N) as [N1 _]. apply Rle_trans with (bpow radix2 (-53) * (/ 1024 * (bpow radix2 (-52) * bpow radix2 (-102)))).
    - change (/ 1024) with (bpow radix2 (-10)). rewrite <- !bpow_plus. apply bpow_le. lia.
    - apply Rmult_le_compat_l; [lra|]. apply Rmult_le_compat_l; [lra|]. apply Rmult_le_compat; try apply bpow_ge_0; assumption. }
  set (ep := bpow radix2 (-53)) in *. set (a := Rabs u) in *. assert (A0 : 0 <= a <= 1) by (split; [apply Rabs_pos|exact U1]).
  assert (EL : 0 <= ep * L <= / 1024 * L) by (split; [apply Rmult_le_pos; lra|apply Rmult_le_compat_r; lra]).
  assert (Eua : Rabs (B2R uh - u) <= 8 * (ep * a)) by (unfold comp in *; fold uh in Eu; lra).
  assert (Ea : 0 <= ep * a <= / 1024 * a) by (split; [apply Rmult_le_pos; lra|apply Rmult_le_compat_r; lra]).
  assert (HU : Rabs (B2R uh) <= a + 8 * (ep * a)) by (replace (B2R uh) with ((B2R uh - u) + u) by ring; apply Rle_trans with (1 := Rabs_triang _ _); fold a; lra).
  assert (Epp : Rabs (B2R ph - P) <= 14 * (ep * L)) by lra.
  assert (HP : Rabs (B2R ph) <= L + 14 * (ep * L)) by (replace (B2R ph) with ((B2R ph - P) + P) by ring; apply Rle_trans with (1 := Rabs_triang _ _); lra).
  set (k := L * a) in *. assert (K0 : 0 <= k <= L) by (unfold k; split; [apply Rmult_le_pos; lra|nra]). assert (Ek : 0 <= ep * k <= / 1000000 * k) by (split; [apply Rmult_le_pos; lra|apply Rmult_le_compat_r; lra]).
  assert (Eek : 0 <= ep * (ep * k) <= / 1000000 * (ep * k)) by (split; [apply Rmult_le_pos; lra|apply Rmult_le_compat_r; lra]).
  assert (PR : Rabs (B2R uh * B2R ph - u * P) <= 22 * (ep * k) + 112 * (ep * (ep * k))).
  { replace (B2R uh * B2R ph - u * P) with ((B2R uh - u) * B2R ph + u * (B2R ph - P)) by ring. apply Rle_trans with (1 := Rabs_triang _ _). rewrite !Rabs_mult. fold a.
    assert (Rabs (B2R uh - u) * Rabs (B2R ph) <= 8 * (ep * a) * (L + 14 * (ep * L))) by (apply Rmult_le_compat; try apply Rabs_pos; assumption).
    assert (a * Rabs (B2R ph - P) <= a * (14 * (ep * L))) by (apply Rmult_le_compat_l; lra). unfold k. lra. }
  assert (UPk : Rabs (u * P) <= k) by (rewrite Rabs_mult; fold a; unfold k; rewrite (Rmult_comm L); apply Rmult_le_compat_l; lra).
  assert (TP : Rabs (B2R uh * B2R ph) <= k + 23 * (ep * k)) by (replace (B2R uh * B2R ph) with ((B2R uh * B2R ph - u * P) + u * P) by ring; apply Rle_trans with (1 := Rabs_triang _ _); lra).
  assert (TE : is_finite (amul uh ph) = true /\ Rabs (B2R (amul uh ph) - u * P) <= 24 * (ep * k)).
  { destruct TU as [Z|TU].
    - assert (Z' : B2R uh = 0). { unfold a in HU, Ea. rewrite Z, Rabs_R0, Rmult_0_r, Rmult_0_r, Rplus_0_r in HU. pose proof (Rabs_pos (B2R uh)) as H. destruct (Req_dec (B2R uh) 0) as [H0|H0]; [exact H0|]. pose proof (Rabs_pos_lt _ H0). lra. }
      destruct (mul_zero uh ph Fu Fp (or_introl Z')) as [F V]. split; [exact F|]. rewrite V, Z, Rmult_0_l, Rminus_0_r, Rabs_R0. lra.
    - destruct (mul_err uh ph Fu Fp) as [F E]; [lra|]. fold ep in E. split; [exact F|].
      replace (B2R (amul uh ph) - u * P) with ((B2R (amul uh ph) - B2R uh * B2R ph) + (B2R uh * B2R ph - u * P)) by ring. apply Rle_trans with (1 := Rabs_triang _ _).
      assert (ep * Rabs (B2R uh * B2R ph) <= ep * (k + 23 * (ep * k))) by (apply Rmult_le_compat_l; lra). fold k in TU. lra. }
  destruct TE as [Ft Et]. set (t := amul uh ph) in *.
  assert (Bt : Rabs (B2R t) <= k + 24 * (ep * k)) by (replace (B2R t) with ((B2R t - u * P) + u * P) by ring; apply Rle_trans with (1 := Rabs_triang _ _); lra).
  assert (XB : Rabs (comp i v - B2R t) <= Rabs (comp i v) + k + 24 * (ep * k)) by (unfold Rminus; apply Rle_trans with (1 := Rabs_triang _ _); rewrite Rabs_Ropp; lra).
  destruct (sub_err (vcomp i v) t (proj1 (proj1 Dv i Hi)) Ft) as [Fc Ec]; [unfold comp in *; lra|]. fold c in Fc, Ec. split; [exact Fc|]. fold (comp i v) in Ec. fold ep in Ec.
  replace (B2R c - (comp i v - u * P)) with ((B2R c - (comp i v - B2R t)) + (u * P - B2R t)) by ring. apply Rle_trans with (1 := Rabs_triang _ _). rewrite (Rabs_minus_sym (u * P)).
  assert (ep * Rabs (comp i v - B2R t) <= ep * (Rabs (comp i v) + k + 24 * (ep * k))) by (apply Rmult_le_compat_l; lra). replace (13 * (2 * ep) * L * a) with (26 * (ep * k)) by (unfold k; ring). lra.
Qed.
Lemma perp_norm v w : direction v -> direction w ->
  norm3 (comp 0 v - comp 0 w / len w * (dot v w / len w)) (comp 1 v - comp 1 w / len w * (dot v w / len w)) (comp 2 v - comp 2 w / len w * (dot v w / len w)) = perp_len v w.
Proof.
  intros Dv Dw. pose proof (len_pos w Dw) as Pw. assert (L2 : len w * len w = dot w w) by (unfold len; apply sqrt_sqrt, Rlt_le, dot_self_pos, Dw). unfold norm3, perp_len. f_equal. unfold dot in *. set (l := len w) in *. clearbody l.
  set (a := comp 0 v). set (b := comp 1 v). set (c := comp 2 v). set (x := comp 0 w) in *. set (y := comp 1 w) in *. set (z := comp 2 w) in *. clearbody a b c x y z. set (s := a * x + b * y + c * z).
  replace ((a - x / l * (s / l)) * (a - x / l * (s / l)) + (b - y / l * (s / l)) * (b - y / l * (s / l)) + (c - z / l * (s / l)) * (c - z / l * (s / l)))
    with (a * a + b * b + c * c - 2 * (s / l) * (s / l) + (x * x + y * y + z * z) * (/ l * / l) * ((s / l) * (s / l))) by (unfold s; field; lra).
  rewrite <- L2. field. lra.
Qed.
Lemma perp_le v w : direction v -> direction w -> 0 <= perp_len v w <= len v.
Proof.
  intros Dv Dw. split; [apply sqrt_pos|]. unfold perp_len. change (len v) with (sqrt (dot v v)). apply sqrt_le_1_alt. pose proof (Rle_0_sqr (dot v w / len w)) as H. unfold Rsqr in H. lra.
Qed.
Theorem C237_perpendicular : forall v w, direction v -> direction w ->
  is_finite (project_per v w) = true /\ Rabs (B2R (project_per v w) - perp_len v w) <= 17 * bpow radix2 (-52) * len v.
Proof.
  intros v w Dv Dw. pose proof (len_pos v Dv) as Pv. pose proof (len_bound v Dv) as Lv. pose proof (near_range _ _ _ _ (mag_near v Dv)) as [Lv' _]. pose proof (len_pos w Dw) as Pw.
  destruct (perp_comp v w 0 Dv Dw ltac:(lia)) as [F0 E0]. destruct (perp_comp v w 1 Dv Dw ltac:(lia)) as [F1 E1]. destruct (perp_comp v w 2 Dv Dw ltac:(lia)) as [F2 E2]. cbv zeta in *.
  change (project_per v w) with (asqrt (sumsq_skip (asub (vcomp 0 v) (amul (vcomp 0 (unit_vector w)) (project_par v w)), asub (vcomp 1 v) (amul (vcomp 1 (unit_vector w)) (project_par v w)), asub (vcomp 2 v) (amul (vcomp 2 (unit_vector w)) (project_par v w))))).
  set (c0 := asub (vcomp 0 v) _) in *. set (c1 := asub (vcomp 1 v) _) in *. set (c2 := asub (vcomp 2 v) _) in *. clearbody c0 c1 c2.
  assert (D : bpow radix2 (-52) = 2 * bpow radix2 (-53)) by (change 2 with (bpow radix2 1); rewrite <- bpow_plus; reflexivity). pose proof u_small as [V1 V2].
  set (L := len v) in *. set (K := 13 * bpow radix2 (-52) * L). assert (EL : 0 <= bpow radix2 (-53) * L <= / 1000000 * L) by (split; [apply Rmult_le_pos; lra|apply Rmult_le_compat_r; lra]). assert (K0 : 0 <= K) by (unfold K; rewrite D; lra).
  pose proof (norm3_near (B2R c0) (B2R c1) (B2R c2) (comp 0 v - comp 0 w / len w * (dot v w / len w)) (comp 1 v - comp 1 w / len w * (dot v w / len w)) (comp 2 v - comp 2 w / len w * (dot v w / len w))) as NN. rewrite (perp_norm v w Dv Dw) in NN.
  pose proof (norm3_mono _ _ _ _ _ _ E0 E1 E2) as NM. fold K in NM.
  pose proof (norm3_tri (K * Rabs (comp 0 w / len w)) (K * Rabs (comp 1 w / len w)) (K * Rabs (comp 2 w / len w)) (bpow radix2 (-53) * Rabs (comp 0 v)) (bpow radix2 (-53) * Rabs (comp 1 v)) (bpow radix2 (-53) * Rabs (comp 2 v))) as NT.
  rewrite !norm3_scale in NT by lra. change (norm3 (comp 0 v) (comp 1 v) (comp 2 v)) with L in NT.
  assert (N1 : norm3 (comp 0 w / len w) (comp 1 w / len w) (comp 2 w / len w) = 1).
  { unfold norm3. rewrite <- sqrt_1. f_equal. assert (L2 : len w * len w = dot w w) by (unfold len; apply sqrt_sqrt, Rlt_le, dot_self_pos, Dw). apply (Rmult_eq_reg_r (len w * len w)); [|nra]. rewrite L2 at 2. unfold dot. field. lra. }
  rewrite N1 in NT. destruct (perp_le v w Dv Dw) as [Q0 Q1]. fold L in Q1. set (q := perp_len v w) in *. set (n := norm3 (B2R c0) (B2R c1) (B2R c2)) in *.
  assert (NB : Rabs (n - q) <= 27 * (bpow radix2 (-53) * L)) by (apply Rle_trans with (1 := NN); apply Rle_trans with (1 := NM); apply Rle_trans with (1 := NT); unfold K; rewrite D; lra). apply Rabs_le_inv in NB.
  assert (HN : n <= bpow radix2 400) by (apply Rle_trans with (bpow radix2 52 * bpow radix2 1); [change (bpow radix2 1) with 2; lra|rewrite <- bpow_plus; apply bpow_le; lia]).
  destruct (sumsq_err c0 c1 c2 F0 F1 F2 HN) as [F E]. split; [exact F|]. fold n in E. apply Rabs_le_inv in E. rewrite D in *.
  assert (S4 : bpow radix2 (-490) <= bpow radix2 (-53) * (/ 1024 * L)).
  { apply Rle_trans with (bpow radix2 (-53) * (/ 1024 * bpow radix2 (-52))); [change (/ 1024) with (bpow radix2 (-10)); rewrite <- !bpow_plus; apply bpow_le; lia|]. apply Rmult_le_compat_l; [lra|]. apply Rmult_le_compat_l; [lra|exact Lv']. }
  set (e := bpow radix2 (-53)) in *. assert (Hn : e * n <= e * L + / 10000 * (e * L)) by (apply Rle_trans with (e * (L + 27 * (e * L))); [apply Rmult_le_compat_l; lra|]; assert (e * (e * L) <= / 1000000 * (e * L)) by (apply Rmult_le_compat_r; lra); lra).
  apply Rabs_le. lra.
Qed.
Example perpendicular237 : is_finite (project_per v237 w237) = true. Proof. apply C237_perpendicular; [exact v237_direction|exact w237_direction]. Qed.
