(** How far the double-precision run of the plasma quantities can be from the formula itself: a bound on the relative error that counts roundings. *)
From Coq Require Import Reals Lra List Bool ZArith Lia Psatz String Permutation.
From Flocq Require Import Core.Core Relative IEEE754.BinarySingleNaN.
From Verif Require Import Py PyStr Sort Num NumB64 Species SpeciesProofs Frame Plasma PlasmaProofs PlasmaProofs2 PlasmaProofs4 Alfven Float64Thms.
Import ListNotations.
Open Scope R_scope.

(** the number (or infinity or NaN) a double stands for *)
Definition exact (x : b64) : XR :=
  match x with B754_nan => NaN | B754_infinity false => PInf | B754_infinity true => MInf | _ => Fin (B2R x) end.
(** [x] is [X] up to [k] times 2^-52 of its size; NaN is NaN and an infinity is that infinity *)
Definition within (k : nat) (x : b64) (X : XR) : Prop :=
  match X with
  | Fin r => is_finite x = true /\ Rabs (B2R x - r) <= INR k * bpow radix2 (-52) * Rabs r
  | NaN => is_nan x = true
  | PInf => x = B754_infinity false
  | MInf => x = B754_infinity true
  end.

(* ------------------------------------------------------------------ k roundings away *)
Definition q64 : R := 1 - bpow radix2 (-53).
Definition near (k : nat) (e : Z) (x : b64) (r : R) : Prop :=
  is_finite x = true /\ bpow radix2 (- e) <= r <= bpow radix2 e /\ r * q64 ^ k <= B2R x /\ B2R x * q64 ^ k <= r.

Lemma u_small : 0 < bpow radix2 (-53) <= / 1125899906842624.
Proof. split; [apply bpow_gt_0|]. change (/ 1125899906842624) with (/ bpow radix2 50). rewrite <- bpow_opp. apply bpow_le. lia. Qed.
Lemma q_bound : 0 < q64 < 1.
Proof. unfold q64. pose proof u_small as [H1 H2]. assert (/ 1125899906842624 < / 2) by (apply Rinv_lt_contravar; lra). lra. Qed.
Lemma qk_pos k : 0 < q64 ^ k. Proof. apply pow_lt, q_bound. Qed.
Lemma qk_le1 k : q64 ^ k <= 1.
Proof. induction k as [|k IH]; cbn; [lra|]. pose proof q_bound. pose proof (qk_pos k). nra. Qed.
Lemma qk_mono k l : (k <= l)%nat -> q64 ^ l <= q64 ^ k.
Proof. intro H. replace l with (k + (l - k))%nat by lia. rewrite pow_add. pose proof (qk_le1 (l - k)). pose proof (qk_pos k). pose proof (qk_pos (l - k)). nra. Qed.
Lemma qk_bernoulli k : 1 - INR k * bpow radix2 (-53) <= q64 ^ k.
Proof.
  induction k as [|k IH]; [cbn; lra|]. rewrite S_INR. cbn [pow]. unfold q64 at 1. pose proof u_small as [H1 H2]. pose proof (qk_le1 k). pose proof (pos_INR k).
  set (u := bpow radix2 (-53)) in *. nra.
Qed.
Lemma ku_small k : (k <= 1000)%nat -> INR k * bpow radix2 (-53) <= / 4.
Proof.
  intro H. apply le_INR in H. change 1000%nat with (Z.to_nat 1000) in H. rewrite INR_IZR_INZ with (n := Z.to_nat 1000) in H. change (IZR (Z.of_nat (Z.to_nat 1000))) with 1000 in H. pose proof u_small as [U1 U2]. pose proof (pos_INR k).
  apply Rle_trans with (1000 * / 1125899906842624); [apply Rmult_le_compat; lra|]. lra.
Qed.
Lemma qk_half k : (k <= 1000)%nat -> / 2 <= q64 ^ k.
Proof. intro H. pose proof (qk_bernoulli k). pose proof (ku_small k H). lra. Qed.

Lemma near_within k e x r : (k <= 1000)%nat -> near k e x r -> within k x (Fin r).
Proof.
  intros K [F [[L U] [A B]]]. split; [exact F|]. pose proof (bpow_gt_0 radix2 (-e)) as P. rewrite (Rabs_pos_eq r) by lra.
  pose proof (qk_bernoulli k) as Q. pose proof (ku_small k K) as S. pose proof (qk_half k K) as Hh. pose proof (qk_le1 k) as H1. pose proof (pos_INR k) as I0. pose proof (bpow_gt_0 radix2 (-53)) as U0.
  assert (D : bpow radix2 (-52) = 2 * bpow radix2 (-53)) by (change 2 with (bpow radix2 1); rewrite <- bpow_plus; reflexivity). rewrite D.
  set (u := bpow radix2 (-53)) in *. set (q := q64 ^ k) in *. set (d := INR k * u) in *. replace (INR k * (2 * u) * r) with (2 * d * r) by (unfold d; ring). assert (D0 : 0 <= d) by (unfold d; nra). clearbody d q. clear D.
  apply Rabs_le. split; [nra|]. assert (B2R x * (1 - d) <= r) by (assert (0 <= B2R x) by nra; nra). assert (0 <= B2R x) by nra. assert (B2R x <= 2 * r) by nra. nra.
Qed.
Lemma near_weak k k' e e' x r : near k e x r -> (k <= k')%nat -> (e <= e')%Z -> near k' e' x r.
Proof.
  intros [F [[L U] [A B]]] K E. pose proof (bpow_gt_0 radix2 (-e)). pose proof (qk_mono k k' K) as Q. pose proof (qk_pos k'). split; [exact F|].
  split; [split; [apply Rle_trans with (2 := L); apply bpow_le; lia|apply Rle_trans with (1 := U); apply bpow_le; lia]|].
  assert (0 <= B2R x) by (pose proof (qk_pos k); nra). split; nra.
Qed.
(** one rounding of a number k roundings away, in the normal range *)
Lemma step64 k e z r : (k <= 1000)%nat -> (e <= 1000)%Z -> bpow radix2 (- e) <= r <= bpow radix2 e -> r * q64 ^ k <= z -> z * q64 ^ k <= r ->
  Rabs (rnd z) < MAXP /\ r * q64 ^ (S k) <= rnd z /\ rnd z * q64 ^ (S k) <= r.
Proof.
  intros K E [L U] A B. pose proof (qk_half k K) as Hh. pose proof (qk_le1 k) as H1. pose proof (bpow_gt_0 radix2 (-e)) as P.
  assert (Z0 : 0 < z) by nra. assert (N : bpow radix2 (-1022) <= z).
  { apply Rle_trans with (bpow radix2 (-1) * bpow radix2 (-e)); [rewrite <- bpow_plus; apply bpow_le; lia|]. change (bpow radix2 (-1)) with (/ 2). nra. }
  pose proof (relative_error_N_FLT radix2 (-1074) 53 ltac:(reflexivity) (fun x => negb (Z.even x)) z) as RE. rewrite (Rabs_pos_eq z) in RE by lra. specialize (RE N).
  change (round radix2 (FLT_exp (-1074) 53) ZnearestE z) with (rnd z) in RE.
  assert (D : / 2 * bpow radix2 (- (53) + 1) = bpow radix2 (-53)) by (change (/ 2) with (bpow radix2 (-1)); rewrite <- bpow_plus; reflexivity). rewrite D in RE.
  assert (LU : z * q64 <= rnd z /\ rnd z * q64 <= z).
  { unfold q64. pose proof u_small as [U1 U2]. apply Rabs_le_inv in RE. set (u := bpow radix2 (-53)) in *. set (y := rnd z) in *. clearbody y u. assert (u < 1) by (apply Rle_lt_trans with (1 := U2); apply Rmult_lt_reg_l with 1125899906842624; lra). split; [lra|]. assert (y <= z * (1 + u)) by lra. assert (y * (1 - u) <= z * (1 + u) * (1 - u)) by nra. nra. }
  destruct LU as [L1 L2]. pose proof q_bound as Qb. assert (Qh : / 2 <= q64) by (pose proof (qk_half 1 ltac:(lia)) as X; cbn in X; lra).
  assert (Y0 : 0 <= rnd z) by (apply rnd_pos; lra). split; [|split].
  - rewrite Rabs_pos_eq by exact Y0. apply Rle_lt_trans with (bpow radix2 2 * bpow radix2 e); [|rewrite <- bpow_plus; apply bpow_lt; lia]. change (bpow radix2 2) with 4.
    assert (rnd z <= 2 * z) by nra. assert (z <= 2 * r) by nra. lra.
  - cbn [pow]. apply Rle_trans with (2 := L1). pose proof q_bound. nra.
  - cbn [pow]. apply Rle_trans with (2 := B). pose proof (qk_pos k). nra.
Qed.
Lemma near_pos k e x r : near k e x r -> 0 < r /\ 0 < B2R x.
Proof. intros [F [[L U] [A B]]]. pose proof (bpow_gt_0 radix2 (-e)). pose proof (qk_pos k). split; [lra|]. assert (0 < r * q64 ^ k) by (apply Rmult_lt_0_compat; lra). lra. Qed.
Lemma near_range k e x r : near k e x r -> bpow radix2 (- e) <= r <= bpow radix2 e. Proof. intros [_ [H _]]. exact H. Qed.

Lemma near_mul k l e f x y r s : near k e x r -> near l f y s -> (k + l <= 1000)%nat -> (e + f <= 1000)%Z -> near (S (k + l)) (e + f) (amul x y) (r * s).
Proof.
  intros Hx Hy K E. destruct (near_pos _ _ _ _ Hx) as [R0 X0]. destruct (near_pos _ _ _ _ Hy) as [S0 Y0]. destruct Hx as [Fx [[L U] [A B]]]. destruct Hy as [Fy [[L' U'] [A' B']]].
  assert (Rg : bpow radix2 (- (e + f)) <= r * s <= bpow radix2 (e + f)).
  { replace (- (e + f))%Z with (- e + - f)%Z by lia. rewrite !bpow_plus. pose proof (bpow_gt_0 radix2 (-e)). pose proof (bpow_gt_0 radix2 (-f)). split; apply Rmult_le_compat; lra. }
  pose proof (qk_pos k). pose proof (qk_pos l).
  destruct (step64 (k + l) (e + f) (B2R x * B2R y) (r * s) K E Rg) as [G1 [G2 G3]].
  { rewrite pow_add. replace (r * s * (q64 ^ k * q64 ^ l)) with ((r * q64 ^ k) * (s * q64 ^ l)) by ring. apply Rmult_le_compat; nra. }
  { rewrite pow_add. replace (B2R x * B2R y * (q64 ^ k * q64 ^ l)) with ((B2R x * q64 ^ k) * (B2R y * q64 ^ l)) by ring. apply Rmult_le_compat; nra. }
  destruct (mul_fin x y Fx Fy) as [[_ [F Q]]|[X _]]; [|lra]. split; [exact F|]. split; [exact Rg|]. rewrite Q. auto.
Qed.
Lemma near_div k l e f x y r s : near k e x r -> near l f y s -> (k + l <= 1000)%nat -> (e + f <= 1000)%Z -> near (S (k + l)) (e + f) (adiv x y) (r / s).
Proof.
  intros Hx Hy K E. destruct (near_pos _ _ _ _ Hx) as [R0 X0]. destruct (near_pos _ _ _ _ Hy) as [S0 Y0]. destruct Hx as [Fx [[L U] [A B]]]. destruct Hy as [Fy [[L' U'] [A' B']]].
  assert (Rg : bpow radix2 (- (e + f)) <= r / s <= bpow radix2 (e + f)).
  { replace (- (e + f))%Z with (- e + - f)%Z by lia. rewrite !bpow_plus. pose proof (bpow_gt_0 radix2 (-e)). pose proof (bpow_gt_0 radix2 (-f)). pose proof (bpow_gt_0 radix2 f).
    assert (I1 : / s <= bpow radix2 f) by (rewrite <- (Rinv_inv (bpow radix2 f)); apply Rinv_le_contravar; [apply Rinv_0_lt_compat; lra|rewrite <- bpow_opp; lra]).
    assert (I2 : bpow radix2 (- f) <= / s) by (rewrite bpow_opp; apply Rinv_le_contravar; lra).
    unfold Rdiv. split; apply Rmult_le_compat; lra. }
  pose proof (qk_pos k). pose proof (qk_pos l).
  destruct (step64 (k + l) (e + f) (B2R x / B2R y) (r / s) K E Rg) as [G1 [G2 G3]].
  { rewrite pow_add. apply (Rmult_le_reg_r (B2R y * s)); [apply Rmult_lt_0_compat; lra|].
    replace (r / s * (q64 ^ k * q64 ^ l) * (B2R y * s)) with ((r * q64 ^ k) * (B2R y * q64 ^ l)) by (field; lra). replace (B2R x / B2R y * (B2R y * s)) with (B2R x * s) by (field; lra). apply Rmult_le_compat; nra. }
  { rewrite pow_add. apply (Rmult_le_reg_r (B2R y * s)); [apply Rmult_lt_0_compat; lra|].
    replace (B2R x / B2R y * (q64 ^ k * q64 ^ l) * (B2R y * s)) with ((B2R x * q64 ^ k) * (s * q64 ^ l)) by (field; lra). replace (r / s * (B2R y * s)) with (r * B2R y) by (field; lra). apply Rmult_le_compat; nra. }
  destruct (div_fin x y Fx ltac:(lra)) as [[_ [F Q]]|[X _]]; [|lra]. split; [exact F|]. split; [exact Rg|]. rewrite Q. auto.
Qed.
Lemma near_add k l e f x y r s : near k e x r -> near l f y s -> (k <= 1000)%nat -> (l <= 1000)%nat -> (e < 1000)%Z -> (f < 1000)%Z ->
  near (S (Nat.max k l)) (Z.max e f + 1) (aadd x y) (r + s).
Proof.
  intros Hx Hy K Kl E E'. destruct (near_pos _ _ _ _ Hx) as [R0 X0]. destruct (near_pos _ _ _ _ Hy) as [S0 Y0]. destruct Hx as [Fx [[L U] [A B]]]. destruct Hy as [Fy [[L' U'] [A' B']]].
  assert (Rg : bpow radix2 (- (Z.max e f + 1)) <= r + s <= bpow radix2 (Z.max e f + 1)).
  { pose proof (bpow_le radix2 (- (Z.max e f + 1)) (- e) ltac:(lia)). pose proof (bpow_le radix2 e (Z.max e f) ltac:(lia)). pose proof (bpow_le radix2 f (Z.max e f) ltac:(lia)).
    rewrite bpow_plus with (e1 := Z.max e f). change (bpow radix2 1) with 2. lra. }
  pose proof (qk_mono k (Nat.max k l) ltac:(lia)) as M1. pose proof (qk_mono l (Nat.max k l) ltac:(lia)) as M2. pose proof (qk_pos (Nat.max k l)).
  destruct (step64 (Nat.max k l) (Z.max e f + 1) (B2R x + B2R y) (r + s) ltac:(lia) ltac:(lia) Rg) as [G1 [G2 G3]]; [nra|nra|].
  destruct (add_fin x y Fx Fy) as [[_ [F Q]]|[X _]]; [|lra]. split; [exact F|]. split; [exact Rg|]. rewrite Q. auto.
Qed.
Lemma near_sqrt k e x r : near (2 * k) (2 * e) x r -> (k <= 500)%nat -> (0 <= e <= 500)%Z -> near (S k) e (asqrt x) (sqrt r).
Proof.
  intros Hx K E. destruct (near_pos _ _ _ _ Hx) as [R0 X0]. destruct Hx as [Fx [[L U] [A B]]].
  assert (SQ : forall j, sqrt (bpow radix2 (2 * j)) = bpow radix2 j) by (intro j; replace (2 * j)%Z with (j + j)%Z by lia; rewrite bpow_plus; apply sqrt_square, bpow_ge_0).
  assert (SK : sqrt (q64 ^ (2 * k)) = q64 ^ k) by (replace (2 * k)%nat with (k + k)%nat by lia; rewrite pow_add; apply sqrt_square; left; apply qk_pos).
  assert (Rg : bpow radix2 (- e) <= sqrt r <= bpow radix2 e).
  { rewrite <- (SQ (-e)%Z), <- (SQ e). replace (2 * - e)%Z with (- (2 * e))%Z by lia. split; apply sqrt_le_1_alt; lra. }
  pose proof (qk_pos (2 * k)).
  destruct (step64 k e (sqrt (B2R x)) (sqrt r) ltac:(lia) ltac:(lia) Rg) as [G1 [G2 G3]].
  { rewrite <- SK, <- sqrt_mult by lra. apply sqrt_le_1_alt; lra. }
  { rewrite <- SK, <- sqrt_mult by lra. apply sqrt_le_1_alt; lra. }
  destruct (Bsqrt_correct 53 1024 _ _ mode_NE x) as [S1 [S2 _]]. split; [|split; [exact Rg|]].
  - change (asqrt x) with (Bsqrt mode_NE x). rewrite S2. destruct x as [s|s| |s m ex H']; try discriminate Fx; [reflexivity|]. rewrite <- (pos_sign (B754_finite s m ex H')) by (split; [reflexivity|exact X0]). cbn [Bsign]. pose proof (pos_sign (B754_finite s m ex H') (conj eq_refl X0)) as Sg. cbn in Sg. rewrite Sg. reflexivity.
  - change (B2R (asqrt x)) with (B2R (Bsqrt mode_NE x)). rewrite S1. auto.
Qed.

(* ------------------------------------------------------------------ the same for numbers of the model *)
Definition rel (k : nat) (e : Z) (x : b64) (X : XR) : Prop := exists r, X = Fin r /\ near k e x r.
Lemma rel_weak k k' e e' x X : rel k e x X -> (k <= k')%nat -> (e <= e')%Z -> rel k' e' x X.
Proof. intros [r [H N]] K E. exists r. split; [exact H|]. exact (near_weak _ _ _ _ _ _ N K E). Qed.
Lemma rel_mul k l e f x y X Y : rel k e x X -> rel l f y Y -> (k + l <= 1000)%nat -> (e + f <= 1000)%Z -> rel (S (k + l)) (e + f) (amul x y) (amul X Y).
Proof. intros [r [-> N]] [s [-> M]] K E. exists (r * s). split; [apply fin_mul|]. apply near_mul; assumption. Qed.
Lemma rel_div k l e f x y X Y : rel k e x X -> rel l f y Y -> (k + l <= 1000)%nat -> (e + f <= 1000)%Z -> rel (S (k + l)) (e + f) (adiv x y) (adiv X Y).
Proof. intros [r [-> N]] [s [-> M]] K E. exists (r / s). split; [apply fin_div; pose proof (near_pos _ _ _ _ M); lra|]. apply near_div; assumption. Qed.
Lemma rel_add k l e f x y X Y : rel k e x X -> rel l f y Y -> (k <= 1000)%nat -> (l <= 1000)%nat -> (e < 1000)%Z -> (f < 1000)%Z -> rel (S (Nat.max k l)) (Z.max e f + 1) (aadd x y) (aadd X Y).
Proof. intros [r [-> N]] [s [-> M]] K Kl E E'. exists (r + s). split; [apply fin_add|]. apply near_add; assumption. Qed.
Lemma rel_sqrt k e x X : rel (2 * k) (2 * e) x X -> (k <= 500)%nat -> (0 <= e <= 500)%Z -> rel (S k) e (asqrt x) (asqrt X).
Proof. intros [r [-> N]] K E. exists (sqrt r). split; [apply fin_sqrt; pose proof (near_pos _ _ _ _ N); lra|]. apply near_sqrt; assumption. Qed.
Lemma rel_sq k e x X : rel k e x X -> (k + k <= 1000)%nat -> (e + e <= 1000)%Z -> rel (S (k + k)) (e + e) (asq x) (asq X).
Proof. intros H K E. apply rel_mul; assumption. Qed.

Lemma bZ_ok z : (Z.abs z < 2 ^ 53)%Z -> is_finite (bZ z) = true /\ B2R (bZ z) = IZR z.
Proof.
  intro B. pose proof (binary_normalize_correct 53 1024 _ _ mode_NE z 0 false) as H. cbv zeta in H.
  assert (V : F2R (Float radix2 z 0) = IZR z) by (unfold F2R; cbn; ring). rewrite V in H.
  assert (G : rnd (IZR z) = IZR z).
  { apply round_generic; [apply _|]. change fexp64 with (FLT_exp (-1074) 53). apply generic_format_FLT. exists (Float radix2 z 0); [symmetry; exact V|exact B|cbn; lia]. }
  change (binary_normalize 53 1024 _ _ mode_NE z 0 false) with (bZ z) in H. rewrite G in H. rewrite Rlt_bool_true in H; [tauto|]. rewrite <- abs_IZR. apply Rle_lt_trans with (IZR (2 ^ 53)); [apply IZR_le; lia|]. change (IZR (2 ^ 53)) with (bpow radix2 53). apply bpow_lt. lia.
Qed.

Lemma rel_int e z : (0 < z < 2 ^ 53)%Z -> (z <= 2 ^ e)%Z -> (0 <= e)%Z -> rel 0 e (bZ z) (aofZ z).
Proof.
  intros B U E. exists (IZR z). split; [apply fin_ofZ|]. destruct (bZ_ok z ltac:(lia)) as [F V]. split; [exact F|]. rewrite V. cbn [pow]. split; [|lra].
  assert (1 <= IZR z) by (apply IZR_le; lia). assert (bpow radix2 (- e) <= 1) by (change 1 with (bpow radix2 0); apply bpow_le; lia).
  assert (IZR z <= bpow radix2 e) by (rewrite <- IZR_Zpower by exact E; apply IZR_le, U). lra.
Qed.
(** a decimal literal n/d *)
Lemma rel_lit e f n d : (0 < n < 2 ^ 53)%Z -> (Zpos d < 2 ^ 53)%Z -> (n <= 2 ^ e)%Z -> (Zpos d <= 2 ^ f)%Z -> (0 <= e)%Z -> (0 <= f)%Z -> (e + f <= 1000)%Z ->
  rel 1 (e + f) (aofQ n d) (aofQ n d).
Proof.
  intros Bn Bd Un Ud E F' S. destruct (rel_int e n Bn Un E) as [r [H N]]. destruct (rel_int f (Zpos d) ltac:(lia) Ud F') as [s [H' M]].
  rewrite fin_ofZ in H, H'. injection H as <-. injection H' as <-. exists (IZR n / IZR (Zpos d)). split; [apply fin_ofQ|]. apply (near_div 0 0 e f _ _ _ _ N M); lia.
Qed.
Lemma rel_ofZ e z : (0 < z < 2 ^ 53)%Z -> (z <= 2 ^ e)%Z -> (0 <= e <= 1000)%Z -> rel 1 e (aofZ z) (aofZ z).
Proof. intros B U E. pose proof (rel_lit e 0 z 1 B ltac:(lia) U ltac:(lia) ltac:(lia) ltac:(lia) ltac:(lia)) as H. rewrite Z.add_0_r in H. exact H. Qed.
Lemma one_exact : rel 0 0 (a1 : b64) a1.
Proof.
  exists 1. split; [apply fin_a1|]. destruct one64 as [F V]. split; [exact F|]. change (B2R (a1 : b64)) with (B2R (aofZ 1 : b64)). rewrite V. cbn. lra.
Qed.

(* ------------------------------------------------------------------ what is measured *)
(** a positive double of ordinary size: between 2^-e and 2^e *)
Definition sized (e : Z) (x : b64) : Prop := is_finite x = true /\ bpow radix2 (- e) <= B2R x <= bpow radix2 e.
Lemma exact_fin (x : b64) : is_finite x = true -> exact x = Fin (B2R x).
Proof. destruct x as [s|[]| |s m e H]; try discriminate; reflexivity. Qed.
Lemma rel_sized e x : sized e x -> rel 0 e x (exact x).
Proof. intros [F S]. exists (B2R x). split; [apply exact_fin, F|]. split; [exact F|]. split; [exact S|]. cbn. lra. Qed.

(** a term of a sum: NaN, zero, or a positive number *)
Definition term (k : nat) (e : Z) (x : b64) (X : XR) : Prop :=
  is_nan x = true /\ X = NaN \/ is_finite x = true /\ B2R x = 0 /\ X = Fin 0 \/ rel k e x X.
Lemma fin_notnan (x : b64) : is_finite x = true -> is_nan x = false. Proof. destruct x; auto. Qed.
Lemma add_zero_l (z x : b64) : is_finite z = true -> B2R z = 0 -> is_finite x = true -> is_finite (aadd z x) = true /\ B2R (aadd z x) = B2R x.
Proof.
  intros Fz Z Fx. destruct (add_fin z x Fz Fx) as [[_ [F E]]|[L _]]; rewrite Z, Rplus_0_l, rnd_id in *; [auto|]. pose proof (B2R_lt x). lra.
Qed.
Lemma add_zero_r (x z : b64) : is_finite z = true -> B2R z = 0 -> is_finite x = true -> is_finite (aadd x z) = true /\ B2R (aadd x z) = B2R x.
Proof.
  intros Fz Z Fx. destruct (add_fin x z Fx Fz) as [[_ [F E]]|[L _]]; rewrite Z, Rplus_0_r, rnd_id in *; [auto|]. pose proof (B2R_lt x). lra.
Qed.
Lemma near_eq k e x y r : near k e x r -> is_finite y = true -> B2R y = B2R x -> near k e y r.
Proof. intros [_ H] F E. split; [exact F|]. rewrite E. exact H. Qed.
(** the accumulator of a sum after n terms *)
Definition acc (k n : nat) (e : Z) (x : b64) (X : XR) : Prop := is_finite x = true /\ B2R x = 0 /\ X = Fin 0 \/ rel (k + n) (e + Z.of_nat n) x X.
Lemma acc_step k n e x X y Y : acc k n e x X -> term k e y Y -> is_nan y = false -> (k + n < 1000)%nat -> (0 <= e)%Z -> (e + Z.of_nat n < 1000)%Z ->
  acc k (S n) e (aadd x y) (aadd X Y).
Proof.
  intros A T N K E B. destruct T as [[T _]|[[Fy [Zy ->]]|Ry]]; [congruence| |].
  - destruct A as [[Fx [Zx ->]]|[r [-> Nr]]].
    + left. destruct (add_zero_l x y Fx Zx Fy) as [F V]. rewrite V. rewrite fin_add, Rplus_0_r. auto.
    + right. destruct (add_zero_r x y Fy Zy (proj1 Nr)) as [F V]. apply (rel_weak (k + n) _ (e + Z.of_nat n)); [|lia|lia]. exists r. rewrite fin_add, Rplus_0_r. split; [reflexivity|]. exact (near_eq _ _ _ _ _ Nr F V).
  - right. destruct A as [[Fx [Zx ->]]|Rx].
    + destruct Ry as [s [-> Ns]]. destruct (add_zero_l x y Fx Zx (proj1 Ns)) as [F V]. apply (rel_weak k _ e); [|lia|lia]. exists s. rewrite fin_add, Rplus_0_l. split; [reflexivity|]. exact (near_eq _ _ _ _ _ Ns F V).
    + pose proof (rel_add _ _ _ _ _ _ _ _ Rx Ry ltac:(lia) ltac:(lia) ltac:(lia) ltac:(lia)) as H. apply (rel_weak _ _ _ _ _ _ H); lia.
Qed.
Lemma zero64 : is_finite (a0 : b64) = true /\ B2R (a0 : b64) = 0.
Proof. split; vm_compute; reflexivity. Qed.
Lemma term_nan k e y Y : term k e y Y -> aisnan y = aisnan Y.
Proof.
  intros [[H ->]|[[F [_ ->]]|[r [-> [F _]]]]]; [exact H| |]; change (aisnan y) with (is_nan y); rewrite (fin_notnan y F); reflexivity.
Qed.
Lemma acc_mono k n m e x X : acc k n e x X -> (n <= m)%nat -> acc k m e x X.
Proof. intros [H|H] L; [left; exact H|right; apply (rel_weak _ _ _ _ _ _ H); lia]. Qed.
Lemma acc_skip k e l L : Forall2 (term k e) l L -> forall n x X, acc k n e x X -> (k + n + List.length l <= 1000)%nat -> (0 <= e)%Z -> (e + Z.of_nat (n + List.length l) <= 1000)%Z ->
  acc k (n + List.length l) e (fold_left (fun a y => if aisnan y then a else aadd a y) l x) (fold_left (fun a y => if aisnan y then a else aadd a y) L X).
Proof.
  induction 1 as [|y Y l L T F IH]; intros n x X A K E B; cbn [fold_left List.length] in *; [rewrite Nat.add_0_r; exact A|].
  rewrite <- (term_nan _ _ _ _ T). destruct (aisnan y) eqn:N.
  - apply (acc_mono _ (n + List.length l)); [apply IH; [exact A|lia|lia|lia]|lia].
  - replace (n + S (List.length l))%nat with (S n + List.length l)%nat by lia. apply IH; [|lia|lia|lia]. apply acc_step; [exact A|exact T|exact N|lia|lia|lia].
Qed.
Lemma acc_strict k e l L : Forall2 (term k e) l L -> (forall y, In y l -> is_nan y = false) -> forall n x X, acc k n e x X -> (k + n + List.length l <= 1000)%nat -> (0 <= e)%Z -> (e + Z.of_nat (n + List.length l) <= 1000)%Z ->
  acc k (n + List.length l) e (fold_left aadd l x) (fold_left aadd L X).
Proof.
  induction 1 as [|y Y l L T F IH]; intros NN n x X A K E B; cbn [fold_left List.length] in *; [rewrite Nat.add_0_r; exact A|].
  replace (n + S (List.length l))%nat with (S n + List.length l)%nat by lia. apply IH; [intros; apply NN; right; assumption| |lia|lia|lia]. apply acc_step; [exact A|exact T|apply NN; left; reflexivity|lia|lia|lia].
Qed.
Lemma acc_0 k e : acc k 0 e (a0 : b64) a0.
Proof. left. split; [apply zero64|]. split; [apply zero64|apply fin_a0]. Qed.
Lemma sum_skip_acc k e l L : Forall2 (term k e) l L -> (k + List.length l <= 1000)%nat -> (0 <= e)%Z -> (e + Z.of_nat (List.length l) <= 1000)%Z -> acc k (List.length l) e (sum_skip l) (sum_skip L).
Proof. intros F K E B. apply (acc_skip k e l L F 0 a0 a0 (acc_0 k e)); [lia|lia|exact B]. Qed.
Lemma sum_strict_acc k e l L : Forall2 (term k e) l L -> (forall y, In y l -> is_nan y = false) -> (k + List.length l <= 1000)%nat -> (0 <= e)%Z -> (e + Z.of_nat (List.length l) <= 1000)%Z -> acc k (List.length l) e (sum_strict l) (sum_strict L).
Proof. intros F N K E B. apply (acc_strict k e l L F N 0 a0 a0 (acc_0 k e)); [lia|lia|exact B]. Qed.
Lemma acc_within k n e x X : acc k n e x X -> (k + n <= 1000)%nat -> within (k + n) x X.
Proof.
  intros [[F [Z ->]]|[r [-> N]]] K; [|exact (near_within _ _ _ _ K N)]. split; [exact F|]. rewrite Z, Rminus_0_r, Rabs_R0. lra.
Qed.
Lemma rel_within k e x X : rel k e x X -> (k <= 1000)%nat -> within k x X.
Proof. intros [r [-> N]] K. exact (near_within _ _ _ _ K N). Qed.
(** sums without a zero or NaN term *)
Lemma fold_pos k e l L : Forall2 (rel k e) l L -> forall n x X, rel (k + n) (e + Z.of_nat n) x X -> (k + n + List.length l <= 1000)%nat -> (0 <= e)%Z -> (e + Z.of_nat (n + List.length l) <= 1000)%Z ->
  rel (k + (n + List.length l)) (e + Z.of_nat (n + List.length l)) (fold_left (fun a y => if aisnan y then a else aadd a y) l x) (fold_left (fun a y => if aisnan y then a else aadd a y) L X).
Proof.
  induction 1 as [|y Y l L T F IH]; intros n x X A K E B; cbn [fold_left List.length] in *; [rewrite Nat.add_0_r; exact A|].
  rewrite <- (term_nan k e y Y (or_intror (or_intror T))). destruct T as [s [-> N]]. change (aisnan y) with (is_nan y). rewrite (fin_notnan y (proj1 N)).
  replace (n + S (List.length l))%nat with (S n + List.length l)%nat by lia. apply IH; [|lia|lia|lia].
  pose proof (rel_add _ _ _ _ _ _ _ _ A (ex_intro _ s (conj eq_refl N)) ltac:(lia) ltac:(lia) ltac:(lia) ltac:(lia)) as H. apply (rel_weak _ _ _ _ _ _ H); lia.
Qed.
Lemma sum_skip_pos k e l L : Forall2 (rel k e) l L -> l <> [] -> (k + List.length l <= 1000)%nat -> (0 <= e)%Z -> (e + Z.of_nat (List.length l) <= 1000)%Z ->
  rel (k + List.length l) (e + Z.of_nat (List.length l)) (sum_skip l) (sum_skip L).
Proof.
  intros F NE K E B.
  destruct F as [|y Y l L T1 F]; [congruence|]. unfold sum_skip. cbn [fold_left List.length]. rewrite <- (term_nan k e y Y (or_intror (or_intror T1))). destruct T1 as [s [-> N]]. change (aisnan y) with (is_nan y). rewrite (fin_notnan y (proj1 N)).
  apply (fold_pos k e l L F 1); [|cbn in *; lia|lia|cbn in *; lia].
  destruct (add_zero_l a0 y (proj1 zero64) (proj2 zero64) (proj1 N)) as [Fs V]. apply (rel_weak k _ e); [|lia|lia]. exists s. rewrite fin_a0, fin_add, Rplus_0_l. split; [reflexivity|]. exact (near_eq _ _ _ _ _ N Fs V).
Qed.

Lemma mul_zero (x y : b64) : is_finite x = true -> is_finite y = true -> B2R x = 0 \/ B2R y = 0 -> is_finite (amul x y) = true /\ B2R (amul x y) = 0.
Proof.
  intros Fx Fy Z. assert (E : B2R x * B2R y = 0) by (destruct Z as [Z|Z]; rewrite Z; ring). destruct (mul_fin x y Fx Fy) as [[_ [F V]]|[L _]]; rewrite E, rnd_0 in *; [auto|]. rewrite Rabs_R0 in L. pose proof (bpow_gt_0 radix2 1024). lra.
Qed.
Lemma mul_nan_l (x y : b64) : is_nan x = true -> is_nan (amul x y) = true. Proof. destruct x; try discriminate. reflexivity. Qed.
Lemma mul_nan_r (x y : b64) : is_nan y = true -> is_nan (amul x y) = true. Proof. destruct y; try discriminate. destruct x; reflexivity. Qed.
Lemma term_mul k l e f x y X Y : term k e x X -> term l f y Y -> (k + l <= 1000)%nat -> (e + f <= 1000)%Z -> term (S (k + l)) (e + f) (amul x y) (amul X Y).
Proof.
  intros [[Nx ->]|[[Fx [Zx ->]]|Rx]] Ty K E.
  - left. split; [apply mul_nan_l, Nx|reflexivity].
  - destruct Ty as [[Ny ->]|[[Fy [Zy ->]]|[s [-> N]]]].
    + left. split; [apply mul_nan_r, Ny|reflexivity].
    + right; left. destruct (mul_zero x y Fx Fy (or_introl Zx)) as [F V]. rewrite fin_mul, Rmult_0_l. auto.
    + right; left. destruct (mul_zero x y Fx (proj1 N) (or_introl Zx)) as [F V]. rewrite fin_mul, Rmult_0_l. auto.
  - destruct Ty as [[Ny ->]|[[Fy [Zy ->]]|Ry]].
    + left. split; [apply mul_nan_r, Ny|]. destruct Rx as [r [-> _]]. reflexivity.
    + right; left. destruct Rx as [r [-> N]]. destruct (mul_zero x y (proj1 N) Fy (or_intror Zy)) as [F V]. rewrite fin_mul, Rmult_0_r. auto.
    + right; right. apply rel_mul; assumption.
Qed.
Lemma term_rel k e x X : rel k e x X -> term k e x X. Proof. intro H. right; right. exact H. Qed.

(** a reading: missing, zero, or a positive number of ordinary size *)
Definition reading (x : b64) : Prop := is_nan x = true \/ is_finite x = true /\ B2R x = 0 \/ sized 50 x.
Lemma term_reading x : reading x -> term 0 50 x (exact x).
Proof.
  intros [H|[[F Z]|H]]; [left|right; left|right; right; apply rel_sized, H].
  - split; [exact H|]. destruct x; try discriminate. reflexivity.
  - split; [exact F|]. split; [exact Z|]. rewrite (exact_fin x F), Z. reflexivity.
Qed.
Definition exact_row (r : row b64) : row XR := fun k => exact (r k).
Definition exact_consts (K : consts b64) : consts XR :=
  mkConsts (exact (c_mp K)) (exact (c_me K)) (exact (c_ma K)) (exact (c_ma_mp K)) (exact (c_me_mp K)) (exact (c_up K)) (exact (c_ua K)) (exact (c_ue K))
           (exact (c_e K)) (exact (c_kbJ K)) (exact (c_kbeV K)) (exact (c_mu0 K)) (exact (c_eps0 K)).
(** physical constants: positive, between 2^-110 and 2^110 (1e-33 to 1e33) *)
Record ordinary (K : consts b64) : Prop := { or_mp : sized 110 (c_mp K); or_me : sized 110 (c_me K); or_ma : sized 110 (c_ma K); or_ma_mp : sized 110 (c_ma_mp K);
  or_me_mp : sized 110 (c_me_mp K); or_kb : sized 110 (c_kbJ K); or_mu0 : sized 110 (c_mu0 K) }.

Section Floats.
  Variable K : consts b64.
  Hypothesis OK : ordinary K.
  Let X := exact_consts K.
  Lemma rel_mmp k : rel 0 110 (m_in_mp_of K k) (m_in_mp_of X k).
  Proof. destruct k; cbn [m_in_mp_of]; [apply (rel_weak _ _ _ _ _ _ one_exact); lia|apply (rel_sized 110 (c_ma_mp K)), OK|apply (rel_sized 110 (c_me_mp K)), OK]. Qed.
  Lemma rel_mass k : rel 0 110 (mass_of K k) (mass_of X k).
  Proof. destruct k; cbn [mass_of]; [apply (rel_sized 110 (c_mp K)), OK|apply (rel_sized 110 (c_ma K)), OK|apply (rel_sized 110 (c_me K)), OK]. Qed.
  Lemma rel_half : rel 1 1 (half : b64) half. Proof. apply (rel_lit 0 1); try lia; reflexivity. Qed.
  Lemma rel_ub : rel 1 30 (u_b : b64) u_b. Proof. apply (rel_lit 0 30); lia. Qed.
  Lemma rel_upth : rel 1 40 (u_pth : b64) u_pth. Proof. apply (rel_lit 0 40); lia. Qed.
  Lemma rel_uv : rel 1 10 (u_v : b64) u_v. Proof. apply rel_ofZ; lia. Qed.
  Lemma rel_uT : rel 1 17 (u_T : b64) u_T. Proof. apply rel_ofZ; lia. Qed.
  Lemma rel_un : rel 1 20 (u_n : b64) u_n. Proof. apply rel_ofZ; lia. Qed.
  Lemma rel_urho : rel 2 130 (u_rho K) (u_rho X).
  Proof. apply (rel_mul 1 0 20 110); [exact rel_un|apply (rel_sized 110 (c_mp K)), OK|lia|lia]. Qed.
  Lemma rel_gamma : rel 3 5 (gamma : b64) gamma.
  Proof. apply (rel_div 1 1 3 2); [apply rel_ofZ; lia|apply rel_ofZ; lia|lia|lia]. Qed.

  Lemma term_rho s k r : reading (r ("n", "", s)%string) -> term 1 160 (amul (ion_n s r) (m_in_mp_of K k)) (amul (ion_n s (exact_row r)) (m_in_mp_of X k)).
  Proof. intro H. apply (term_mul 0 0 50 110); [apply term_reading, H|apply term_rel, rel_mmp|lia|lia]. Qed.
  Lemma term_wsq c s r : reading (r ("w", c, s)%string) -> term 5 120 (asq (amul (ion_w c s r) u_v)) (asq (amul (ion_w c s (exact_row r)) u_v)).
  Proof. intro H. assert (A : term 2 60 (amul (ion_w c s r) u_v) (amul (ion_w c s (exact_row r)) u_v)) by (apply (term_mul 0 1 50 10); [apply term_reading, H|apply term_rel, rel_uv|lia|lia]). apply (term_mul 2 2 60 60); [exact A|exact A|lia|lia]. Qed.
  Lemma term_pth c s k r : reading (r ("n", "", s)%string) -> reading (r ("w", c, s)%string) ->
    term 14 451 (amul (adiv half u_pth) (amul (asq (amul (ion_w c s r) u_v)) (amul (amul (ion_n s r) (m_in_mp_of K k)) (u_rho K))))
      (amul (adiv half u_pth) (amul (asq (amul (ion_w c s (exact_row r)) u_v)) (amul (amul (ion_n s (exact_row r)) (m_in_mp_of X k)) (u_rho X)))).
  Proof.
    intros Hn Hw. apply (term_mul 3 10 41 410); [|apply (term_mul 5 4 120 290)| |]; try lia.
    - apply term_rel, (rel_div 1 1 1 40); [exact rel_half|exact rel_upth|lia|lia].
    - exact (term_wsq c s r Hw).
    - apply (term_mul 1 2 160 130); [exact (term_rho s k r Hn)|apply term_rel, rel_urho|lia|lia].
  Qed.
  Lemma term_temp c s k r : reading (r ("w", c, s)%string) ->
    term 11 358 (amul (adiv (amul half (mass_of K k)) (amul (c_kbJ K) u_T)) (asq (amul (ion_w c s r) u_v)))
      (amul (adiv (amul half (mass_of X k)) (amul (c_kbJ X) u_T)) (asq (amul (ion_w c s (exact_row r)) u_v))).
  Proof.
    intro Hw. apply (term_mul 5 5 238 120); [|exact (term_wsq c s r Hw)|lia|lia]. apply term_rel. apply (rel_div 2 2 111 127); [| |lia|lia].
    - apply (rel_mul 1 0 1 110); [exact rel_half|apply rel_mass|lia|lia].
    - apply (rel_mul 0 1 110 17); [apply (rel_sized 110 (c_kbJ K)), OK|exact rel_uT|lia|lia].
  Qed.
End Floats.

(* ------------------------------------------------------------------ the plasma-level quantities *)
Definition kof (s : string) : kind := match get_kind s with Ok k => k | Err _ => KProton end.
Lemma kof_ok s : known s -> get_kind s = Ok (kof s).
Proof. intro H. destruct (get_kind_known s H) as [k [E _]]. unfold kof. rewrite E. reflexivity. Qed.
Lemma cols_at_any {T} {A : Arith T} (g : string -> row T -> T) l r : cols_at (map (fun s => (s, g s)) l) r = map (fun s => g s r) l.
Proof. unfold cols_at. rewrite map_map. reflexivity. Qed.
Lemma sort_length l : List.length (sort_str l) = List.length l.
Proof. apply Permutation_length, sort_perm. Qed.

(** the outcome of a call in double precision and on the exact numbers: both a total, [k] roundings apart in the row [r] *)
Definition total_within (k : nat) (q : result (quantity b64)) (Q : result (quantity XR)) (r : row b64) : Prop :=
  exists f F, q = Ok (Total f) /\ Q = Ok (Total F) /\ within k (f r) (F (exact_row r)).
Definition total_rel (k : nat) (e : Z) (q : result (quantity b64)) (Q : result (quantity XR)) (r : row b64) : Prop :=
  exists f F, q = Ok (Total f) /\ Q = Ok (Total F) /\ rel k e (f r) (F (exact_row r)).
(** a frame: the same species, each column [k] roundings apart *)
Definition columns_within (k : nat) (q : result (quantity b64)) (Q : result (quantity XR)) (r : row b64) : Prop :=
  exists l L, q = Ok (Each l) /\ Q = Ok (Each L) /\ Forall2 (fun c C => fst c = fst C /\ within k (snd c r) (snd C (exact_row r))) l L.

Lemma forall2_map {B C} (P : B -> C -> Prop) (f : string -> B) (F : string -> C) l : (forall s, In s l -> P (f s) (F s)) -> Forall2 P (map f l) (map F l).
Proof. induction l as [|s l IH]; intro H; [constructor|]. cbn [map]. constructor; [apply H; left; reflexivity|apply IH; intros; apply H; right; assumption]. Qed.

Section Totals.
  Variables (ions names : list string) (r : row b64).
  Hypothesis U : usable ions names.
  (** one argument: the sum over the species *)
  Lemma total_skip k e (q : string -> result (row b64 -> b64)) (Q : string -> result (row XR -> XR)) g G :
    (forall s, In s names -> q s = Ok (g s)) -> (forall s, In s names -> Q s = Ok (G s)) ->
    (forall s, In s names -> term k e (g s r) (G s (exact_row r))) ->
    (k + List.length names <= 1000)%nat -> (0 <= e)%Z -> (e + Z.of_nat (List.length names) <= 1000)%Z ->
    total_within (k + List.length names)
      (slist <- chk_species ions [PStr (join "+" names)] ;; cols <- per_species ions q slist ;; Ok (total_or_each sum_skip [PStr (join "+" names)] cols))
      (slist <- chk_species ions [PStr (join "+" names)] ;; cols <- per_species ions Q slist ;; Ok (total_or_each sum_skip [PStr (join "+" names)] cols)) r.
  Proof.
    intros Hq HQ T Kb E B. eexists. eexists. rewrite chk_join by apply U. cbn [bind]. rewrite (per_species_ok _ q g), (per_species_ok _ Q G) by (try apply U; assumption). cbn [bind].
    split; [reflexivity|]. split; [reflexivity|]. cbv beta. rewrite !cols_at_any. rewrite <- (sort_length names). rewrite <- (map_length (fun s => g s r)).
    apply (acc_within _ _ e); [|rewrite map_length, sort_length; exact Kb]. apply sum_skip_acc; try (rewrite map_length, sort_length; assumption); [|exact E].
    apply forall2_map. intros s H. rewrite sort_In in H. apply T, H.
  Qed.
  Lemma total_pos k e (q : string -> result (row b64 -> b64)) (Q : string -> result (row XR -> XR)) g G :
    (forall s, In s names -> q s = Ok (g s)) -> (forall s, In s names -> Q s = Ok (G s)) ->
    (forall s, In s names -> rel k e (g s r) (G s (exact_row r))) ->
    (k + List.length names <= 1000)%nat -> (0 <= e)%Z -> (e + Z.of_nat (List.length names) <= 1000)%Z ->
    total_rel (k + List.length names) (e + Z.of_nat (List.length names))
      (slist <- chk_species ions [PStr (join "+" names)] ;; cols <- per_species ions q slist ;; Ok (total_or_each sum_skip [PStr (join "+" names)] cols))
      (slist <- chk_species ions [PStr (join "+" names)] ;; cols <- per_species ions Q slist ;; Ok (total_or_each sum_skip [PStr (join "+" names)] cols)) r.
  Proof.
    intros Hq HQ T Kb E B. eexists. eexists. rewrite chk_join by apply U. cbn [bind]. rewrite (per_species_ok _ q g), (per_species_ok _ Q G) by (try apply U; assumption). cbn [bind].
    split; [reflexivity|]. split; [reflexivity|]. cbv beta. rewrite !cols_at_any. rewrite <- (sort_length names). rewrite <- (map_length (fun s => g s r)).
    apply sum_skip_pos; try (rewrite map_length, sort_length; assumption); [| |exact E].
    - apply forall2_map. intros s H. rewrite sort_In in H. apply T, H.
    - intro N. apply map_eq_nil in N. exact (sort_nonempty _ (us_ne _ _ U) N).
  Qed.
  (** several arguments: one column per species *)
  Lemma each_within k e (q : string -> result (row b64 -> b64)) (Q : string -> result (row XR -> XR)) g G :
    List.length names <> 1%nat -> (forall s, In s names -> q s = Ok (g s)) -> (forall s, In s names -> Q s = Ok (G s)) ->
    (forall s, In s names -> term k e (g s r) (G s (exact_row r))) -> (k <= 1000)%nat ->
    columns_within k
      (slist <- chk_species ions (map PStr names) ;; cols <- per_species ions q slist ;; Ok (total_or_each sum_skip (map PStr names) cols))
      (slist <- chk_species ions (map PStr names) ;; cols <- per_species ions Q slist ;; Ok (total_or_each sum_skip (map PStr names) cols)) r.
  Proof.
    intros L1 Hq HQ T Kb. eexists. eexists. rewrite chk_many by (try apply U; assumption). cbn [bind]. rewrite (per_species_ok _ q g), (per_species_ok _ Q G) by (try apply U; assumption). cbn [bind].
    assert (Sh : forall {T'} {A : Arith T'} (cols : list (string * (row T' -> T'))), total_or_each sum_skip (map PStr names) cols = Each cols).
    { intros. unfold total_or_each. destruct names as [|x [|y l]]; [exfalso; apply (us_ne _ _ U); reflexivity|exfalso; apply L1; reflexivity|reflexivity]. }
    rewrite !Sh. split; [reflexivity|]. split; [reflexivity|]. apply forall2_map. intros s H. rewrite sort_In in H. cbn [fst snd]. split; [reflexivity|].
    specialize (T s H). replace k with (k + 0)%nat by lia. destruct T as [[N ->]|[[F [Z ->]]|R']]; [exact N| |].
    - apply (acc_within k 0 e); [left; auto|lia].
    - apply (acc_within k 0 e); [right; apply (rel_weak _ _ _ _ _ _ R'); lia|lia].
  Qed.
End Totals.

Section Claims.
  Variable K : consts b64.
  Hypothesis OK : ordinary K.
  Let X := exact_consts K.
  Lemma known_us ions names (U : usable ions names) s : In s names -> known s. Proof. intro H. exact (us_known _ _ U s H). Qed.
  Lemma ion_rho_gen {T} {A : Arith T} (Kx : consts T) s : known s -> ion_rho Kx s = Ok (fun r => amul (ion_n s r) (m_in_mp_of Kx (kof s))).
  Proof. intro H. unfold ion_rho. rewrite (kof_ok s H). reflexivity. Qed.
  Lemma ion_pth_gen {T} {A : Arith T} (Kx : consts T) c s : known s ->
    ion_pth Kx c s = Ok (fun r => amul (adiv half u_pth) (amul (asq (amul (ion_w c s r) u_v)) (amul (amul (ion_n s r) (m_in_mp_of Kx (kof s))) (u_rho Kx)))).
  Proof. intro H. unfold ion_pth. rewrite (ion_rho_gen Kx s H). reflexivity. Qed.
  Lemma ion_temp_gen {T} {A : Arith T} (Kx : consts T) c s : known s ->
    ion_temperature Kx c s = Ok (fun r => amul (adiv (amul half (mass_of Kx (kof s))) (amul (c_kbJ Kx) u_T)) (asq (amul (ion_w c s r) u_v))).
  Proof. intro H. unfold ion_temperature. rewrite (kof_ok s H). reflexivity. Qed.

  Lemma rel_of_term_rho s r : sized 50 (r ("n", "", s)%string) -> rel 1 160 (amul (ion_n s r) (m_in_mp_of K (kof s))) (amul (ion_n s (exact_row r)) (m_in_mp_of X (kof s))).
  Proof. intro H. apply (rel_mul 0 0 50 110); [exact (rel_sized 50 _ H)|apply rel_mmp, OK|lia|lia]. Qed.
  Lemma rel_wsq c s r : sized 50 (r ("w", c, s)%string) -> rel 5 120 (asq (amul (ion_w c s r) u_v)) (asq (amul (ion_w c s (exact_row r)) u_v)).
  Proof. intro H. apply (rel_sq 2 60); [|lia|lia]. apply (rel_mul 0 1 50 10); [exact (rel_sized 50 _ H)|exact rel_uv|lia|lia]. Qed.
  Lemma rel_pth c s r : sized 50 (r ("n", "", s)%string) -> sized 50 (r ("w", c, s)%string) ->
    rel 14 451 (amul (adiv half u_pth) (amul (asq (amul (ion_w c s r) u_v)) (amul (amul (ion_n s r) (m_in_mp_of K (kof s))) (u_rho K))))
      (amul (adiv half u_pth) (amul (asq (amul (ion_w c s (exact_row r)) u_v)) (amul (amul (ion_n s (exact_row r)) (m_in_mp_of X (kof s))) (u_rho X)))).
  Proof.
    intros Hn Hw. apply (rel_mul 3 10 41 410); [|apply (rel_mul 5 4 120 290)| |]; try lia.
    - apply (rel_div 1 1 1 40); [exact rel_half|exact rel_upth|lia|lia].
    - exact (rel_wsq c s r Hw).
    - apply (rel_mul 1 2 160 130); [exact (rel_of_term_rho s r Hn)|apply rel_urho, OK|lia|lia].
  Qed.

End Claims.

Section Field.
  Variable K : consts b64.
  Hypothesis OK : ordinary K.
  Let X := exact_consts K.
  Variable r : row b64.
  (** the field: components of either sign or zero, not all zero *)
  Definition comp_ok (x : b64) : Prop := is_finite x = true /\ (B2R x = 0 \/ bpow radix2 (- 50) <= Rabs (B2R x) <= bpow radix2 50).
  Definition field_ok : Prop := comp_ok (r ("b", "x", "")%string) /\ comp_ok (r ("b", "y", "")%string) /\ comp_ok (r ("b", "z", "")%string)
    /\ (B2R (r ("b", "x", "")%string) <> 0 \/ B2R (r ("b", "y", "")%string) <> 0 \/ B2R (r ("b", "z", "")%string) <> 0).
  Lemma comp_sq x : comp_ok x -> term 1 100 (asq x) (asq (exact x)) /\ asq (exact x) = Fin (B2R x * B2R x).
  Proof.
    intros [F [Z|S]]; rewrite (exact_fin x F), fin_sq; (split; [|reflexivity]).
    - right; left. destruct (mul_zero x x F F (or_introl Z)) as [G V]. rewrite Z, Rmult_0_l. auto.
    - right; right. exists (B2R x * B2R x). split; [reflexivity|].
      assert (Sz : sized 50 (Babs x)) by (split; [rewrite is_finite_Babs; exact F|rewrite B2R_Babs; exact S]).
      destruct (rel_sq 0 50 _ _ (rel_sized 50 _ Sz) ltac:(lia) ltac:(lia)) as [s [E N]].
      assert (Fa : is_finite (Babs x) = true) by apply Sz. rewrite (exact_fin _ Fa), fin_sq, B2R_Babs in E. injection E as E. rewrite <- Rabs_mult, Rabs_pos_eq in E by nra. subst s.
      apply (near_eq _ _ _ _ _ N); unfold asq in *.
      + destruct (mul_fin x x F F) as [[_ [G _]]|[L _]]; [exact G|exfalso]. destruct (mul_fin (Babs x) (Babs x) Fa Fa) as [[L' _]|[_ E']].
        * rewrite B2R_Babs, <- Rabs_mult, (Rabs_pos_eq (B2R x * B2R x)) in L' by nra. lra.
        * pose proof (proj1 N) as G. change (amul (Babs x) (Babs x)) with (Bmult mode_NE (Babs x) (Babs x)) in G. unfold asq in N. change (is_finite (amul (Babs x) (Babs x)) = true) in G. rewrite E' in G. discriminate G.
      + destruct (mul_fin x x F F) as [[_ [_ V]]|[L _]]; destruct (mul_fin (Babs x) (Babs x) Fa Fa) as [[L' [_ V']]|[L' E']].
        * rewrite V, V', B2R_Babs, <- Rabs_mult, (Rabs_pos_eq (B2R x * B2R x)) by nra. reflexivity.
        * pose proof (proj1 N) as G. change (is_finite (amul (Babs x) (Babs x)) = true) in G. rewrite E' in G. discriminate G.
        * rewrite B2R_Babs, <- Rabs_mult, (Rabs_pos_eq (B2R x * B2R x)) in L' by nra. lra.
        * pose proof (proj1 N) as G. change (is_finite (amul (Babs x) (Babs x)) = true) in G. rewrite E' in G. discriminate G.
  Qed.
  Lemma bmag_rel : field_ok -> rel 3 52 (bmag r) (bmag (exact_row r)).
  Proof.
    intros [Hx [Hy [Hz NZ]]]. destruct (comp_sq _ Hx) as [Tx Ex]. destruct (comp_sq _ Hy) as [Ty Ey]. destruct (comp_sq _ Hz) as [Tz Ez].
    unfold bmag, bfield, vmag, exact_row. apply (rel_sqrt 2 52); [|lia|lia].
    pose proof (sum_strict_acc 1 100 _ _ (Forall2_cons _ _ Tx (Forall2_cons _ _ Ty (Forall2_cons _ _ Tz (Forall2_nil _))))) as A.
    assert (NN : forall y, In y [asq (r ("b", "x", "")%string); asq (r ("b", "y", "")%string); asq (r ("b", "z", "")%string)] -> is_nan y = false).
    { intros y [<-|[<-|[<-|[]]]].
      - pose proof (term_nan _ _ _ _ Tx) as H. rewrite Ex in H. exact H.
      - pose proof (term_nan _ _ _ _ Ty) as H. rewrite Ey in H. exact H.
      - pose proof (term_nan _ _ _ _ Tz) as H. rewrite Ez in H. exact H. }
    specialize (A NN ltac:(cbn; lia) ltac:(lia) ltac:(cbn; lia)). destruct A as [[_ [_ E]]|R'].
    - exfalso. rewrite Ex, Ey, Ez in E. change [Fin (B2R (r ("b", "x", "")%string) * B2R (r ("b", "x", "")%string)); Fin (B2R (r ("b", "y", "")%string) * B2R (r ("b", "y", "")%string)); Fin (B2R (r ("b", "z", "")%string) * B2R (r ("b", "z", "")%string))]
        with (map Fin [B2R (r ("b", "x", "")%string) * B2R (r ("b", "x", "")%string); B2R (r ("b", "y", "")%string) * B2R (r ("b", "y", "")%string); B2R (r ("b", "z", "")%string) * B2R (r ("b", "z", "")%string)]) in E.
      rewrite sum_strict_fin in E. injection E as E. cbn [Rsum fold_right] in E. unfold Rsum in E. cbn in E. destruct NZ as [N|[N|N]]; apply N; nra.
    - apply (rel_weak _ _ _ _ _ _ R'); cbn [List.length Z.of_nat]; lia.
  Qed.

  Lemma bsq_rel : field_ok -> rel 7 104 (asq (bmag r)) (asq (bmag (exact_row r))).
  Proof. intro B. apply (rel_sq 3 52); [exact (bmag_rel B)|lia|lia]. Qed.
  Lemma ubsq_rel : rel 3 60 (asq u_b : b64) (asq u_b). Proof. apply (rel_sq 1 30); [exact rel_ub|lia|lia]. Qed.
  Lemma mu2_rel : rel 2 111 (amul a2 (c_mu0 K)) (amul a2 (c_mu0 X)).
  Proof. apply (rel_mul 1 0 1 110); [apply (rel_ofZ 1 2); lia|apply (rel_sized 110 (c_mu0 K)), OK|lia|lia]. Qed.
  Lemma pb_rel : field_ok -> rel 16 315 (pb K r) (pb X (exact_row r)).
  Proof.
    intro B. unfold pb. apply (rel_mul 7 8 104 211); [exact (bsq_rel B)| |lia|lia]. apply (rel_div 3 4 60 151); [exact ubsq_rel| |lia|lia].
    apply (rel_mul 2 1 111 40); [exact mu2_rel|exact rel_upth|lia|lia].
  Qed.
End Field.

Section Derived.
  Variable K : consts b64.
  Hypothesis OK : ordinary K.
  Let X := exact_consts K.
  Variables (ions names : list string) (r : row b64).
  Hypothesis U : usable ions names.
  Hypothesis Few : (List.length names <= 40)%nat.
  Definition dens_ok := forall s, In s names -> sized 50 (r ("n", "", s)%string).
  Definition speed_ok c := forall s, In s names -> sized 50 (r ("w", c, s)%string).

  Lemma rho_tot : dens_ok -> total_rel (1 + List.length names) (160 + Z.of_nat (List.length names)) (mass_density K ions [PStr (join "+" names)]) (mass_density X ions [PStr (join "+" names)]) r.
  Proof.
    intro D. unfold mass_density. eapply (total_pos ions names r U 1 160); try lia.
    - intros s H. apply ion_rho_gen, (us_known _ _ U s H).
    - intros s H. apply ion_rho_gen, (us_known _ _ U s H).
    - intros s H. exact (rel_of_term_rho K OK s r (D s H)).
  Qed.
  Lemma pth_tot c : dens_ok -> speed_ok c -> total_rel (14 + List.length names) (451 + Z.of_nat (List.length names)) (pth K ions [PStr (join "+" names)] c) (pth X ions [PStr (join "+" names)] c) r.
  Proof.
    intros D W. unfold pth. eapply (total_pos ions names r U 14 451); try lia.
    - intros s H. apply ion_pth_gen, (us_known _ _ U s H).
    - intros s H. apply ion_pth_gen, (us_known _ _ U s H).
    - intros s H. exact (rel_pth K OK c s r (D s H) (W s H)).
  Qed.

  Lemma beta_coeff_rel : rel 8 211 (beta_coeff K) (beta_coeff X).
  Proof. unfold beta_coeff. apply (rel_mul 2 5 111 100); [exact (mu2_rel K OK)| |lia|lia]. apply (rel_div 1 3 40 60); [exact rel_upth|exact ubsq_rel|lia|lia]. Qed.
  Lemma beta_tot c : dens_ok -> speed_ok c -> field_ok r -> total_within (31 + List.length names) (beta K ions [PStr (join "+" names)] c) (beta X ions [PStr (join "+" names)] c) r.
  Proof.
    intros D W B. destruct (pth_tot c D W) as [f [F [E1 [E2 R1]]]]. unfold beta. rewrite E1, E2. cbn [bind qmap]. eexists. eexists. split; [reflexivity|]. split; [reflexivity|]. cbv beta.
    assert (G : rel (S (S (14 + List.length names + 7) + 8)) (451 + Z.of_nat (List.length names) + 104 + 211) (amul (adiv (f r) (asq (bmag r))) (beta_coeff K)) (amul (adiv (F (exact_row r)) (asq (bmag (exact_row r)))) (beta_coeff X))).
    { apply rel_mul; [|exact beta_coeff_rel|lia|lia]. apply rel_div; [exact R1|exact (bsq_rel r B)|lia|lia]. }
    apply (rel_within _ (451 + Z.of_nat (List.length names) + 104 + 211)); [|lia]. apply (rel_weak _ _ _ _ _ _ G); lia.
  Qed.
  Lemma cs_tot : dens_ok -> speed_ok "scalar" -> total_within (16 + List.length names) (sound_speed K ions [PStr (join "+" names)]) (sound_speed X ions [PStr (join "+" names)]) r.
  Proof.
    intros D W. destruct (rho_tot D) as [h [H [E3 [E4 R2]]]]. destruct (pth_tot "scalar" D W) as [f [F [E1 [E2 R1]]]]. unfold sound_speed. rewrite E1, E2, E3, E4. cbn [bind qmap2].
    eexists. eexists. split; [reflexivity|]. split; [reflexivity|]. cbv beta. set (n := List.length names) in *.
    assert (G : rel (S (S (S (14 + n + 1) + S (1 + n + 2)) + 3)) (451 + Z.of_nat n + 40 + (160 + Z.of_nat n + 130) + 5)
      (amul (adiv (amul (f r) u_pth) (amul (h r) (u_rho K))) gamma) (amul (adiv (amul (F (exact_row r)) u_pth) (amul (H (exact_row r)) (u_rho X))) gamma)).
    { apply rel_mul; [|exact rel_gamma|lia|lia]. apply rel_div; [| |lia|lia]; (apply rel_mul; [first [exact R1|exact R2]|first [exact rel_upth|apply rel_urho, OK]|lia|lia]). }
    apply (rel_weak _ (2 * (13 + n)) _ (2 * (393 + Z.of_nat n))) in G; [|lia|lia]. apply rel_sqrt in G; [|lia|lia].
    apply (rel_within _ (393 + Z.of_nat n + 10)); [|lia]. apply (rel_weak (S (S (13 + n) + 1)) _ (393 + Z.of_nat n + 10)); [|lia|lia]. apply rel_div; [exact G|exact rel_uv|lia|lia].
  Qed.
  Lemma ca_coeff_rel : rel 7 160 (ca_coeff K) (ca_coeff X).
  Proof.
    unfold ca_coeff. apply (rel_div 1 5 30 130); [exact rel_ub| |lia|lia]. apply (rel_mul 3 1 120 10); [|exact rel_uv|lia|lia]. apply (rel_sqrt 2 120); [|lia|lia].
    apply (rel_weak 3 _ 240); [|lia|lia]. apply (rel_mul 2 0 130 110); [apply rel_urho, OK|apply (rel_sized 110 (c_mu0 K)), OK|lia|lia].
  Qed.
  Lemma ca_tot : dens_ok -> field_ok r -> total_within (15 + List.length names) (ca K ions [PStr (join "+" names)]) (ca X ions [PStr (join "+" names)]) r.
  Proof.
    intros D B. destruct (rho_tot D) as [f [F [E1 [E2 R1]]]]. unfold ca. rewrite E1, E2. cbn [bind qmap]. eexists. eexists. split; [reflexivity|]. split; [reflexivity|]. cbv beta. set (n := List.length names) in *.
    apply (rel_weak _ (2 * (1 + n)) _ (2 * (80 + Z.of_nat n))) in R1; [|lia|lia]. apply rel_sqrt in R1; [|lia|lia].
    assert (G : rel (S (S (S (0 + S (1 + n)) + 3) + 7)) (0 + (80 + Z.of_nat n) + 52 + 160) (amul (amul (ainv (asqrt (f r))) (bmag r)) (ca_coeff K)) (amul (amul (ainv (asqrt (F (exact_row r)))) (bmag (exact_row r))) (ca_coeff X))).
    { apply rel_mul; [|exact ca_coeff_rel|lia|lia]. apply rel_mul; [|exact (bmag_rel r B)|lia|lia]. apply rel_div; [exact one_exact|exact R1|lia|lia]. }
    apply (rel_within _ (0 + (80 + Z.of_nat n) + 52 + 160)); [|lia]. apply (rel_weak _ _ _ _ _ _ G); lia.
  Qed.
  Lemma aniso_tot : dens_ok -> speed_ok "par" -> speed_ok "per" -> total_within (31 + 2 * List.length names) (anisotropy K ions [PStr (join "+" names)]) (anisotropy X ions [PStr (join "+" names)]) r.
  Proof.
    intros D W1 W2. destruct (pth_tot "par" D W1) as [f [F [E1 [E2 R1]]]]. destruct (pth_tot "per" D W2) as [h [H [E3 [E4 R2]]]]. unfold anisotropy. rewrite E1, E2, E3, E4. cbn [bind qmap2].
    eexists. eexists. split; [reflexivity|]. split; [reflexivity|]. cbv beta. set (n := List.length names) in *.
    pose proof (rel_div _ _ _ _ _ _ _ _ one_exact R1 ltac:(lia) ltac:(lia)) as RI. fold (ainv (f r)) in RI. fold (ainv (F (exact_row r))) in RI.
    assert (NN : forall k e x Y, rel k e x Y -> aisnan x = false /\ aisnan Y = false) by (intros k e x Y R0; split; [destruct R0 as [s [_ N]]; exact (fin_notnan x (proj1 N))|destruct R0 as [s [-> _]]; reflexivity]).
    unfold prod_skip. cbn [fold_left]. rewrite (proj1 (NN _ _ _ _ RI)), (proj2 (NN _ _ _ _ RI)), (proj1 (NN _ _ _ _ R2)), (proj2 (NN _ _ _ _ R2)).
    assert (G : rel (S (S (0 + S (0 + (14 + n))) + (14 + n))) (0 + (0 + (451 + Z.of_nat n)) + (451 + Z.of_nat n)) (amul (amul a1 (ainv (f r))) (h r)) (amul (amul a1 (ainv (F (exact_row r)))) (H (exact_row r)))).
    { apply rel_mul; [|exact R2|lia|lia]. apply rel_mul; [exact one_exact|exact RI|lia|lia]. }
    apply (rel_within _ (0 + (0 + (451 + Z.of_nat n)) + (451 + Z.of_nat n))); [|lia]. apply (rel_weak _ _ _ _ _ _ G); lia.
  Qed.
End Derived.

(* ------------------------------------------------------------------ C232: every computed quantity is within a counted number of roundings of its formula *)
(** A relative error of at most 45 times 2^-52 leaves fourteen digits. *)
Theorem C232_fourteen_digits : forall k x r, (k <= 45)%nat -> within k x (Fin r) -> is_finite x = true /\ Rabs (B2R x - r) <= / 10 ^ 14 * Rabs r.
Proof.
  intros k x r H [F B]. split; [exact F|]. apply Rle_trans with (1 := B). apply Rmult_le_compat_r; [apply Rabs_pos|]. apply le_INR in H. replace (INR 45) with 45 in H by (cbn; lra).
  assert (E : bpow radix2 (-52) = / 4503599627370496) by reflexivity. rewrite E. pose proof (pos_INR k). apply Rle_trans with (45 * / 4503599627370496); [apply Rmult_le_compat_r; lra|]. cbn [pow]. lra.
Qed.
(** Densities of up to 40 species, readings missing or zero included: one rounding per species. *)
Theorem C232_number_density : forall ions names (r : row b64), usable ions names -> (List.length names <= 40)%nat -> (forall s, In s names -> reading (r ("n", "", s)%string)) ->
  total_within (List.length names) (number_density ions [PStr (join "+" names)] true) (number_density ions [PStr (join "+" names)] true) r.
Proof.
  intros ions names r U Few H. unfold number_density. eapply (total_skip ions names r U 0 50); try lia.
  - intros s I. reflexivity.
  - intros s I. reflexivity.
  - intros s I. exact (term_reading _ (H s I)).
Qed.
Theorem C232_mass_density : forall (K : consts b64) ions names (r : row b64), ordinary K -> usable ions names -> (List.length names <= 40)%nat ->
  (forall s, In s names -> reading (r ("n", "", s)%string)) ->
  total_within (1 + List.length names) (mass_density K ions [PStr (join "+" names)]) (mass_density (exact_consts K) ions [PStr (join "+" names)]) r
  /\ (List.length names <> 1%nat -> columns_within 1 (mass_density K ions (map PStr names)) (mass_density (exact_consts K) ions (map PStr names)) r).
Proof.
  intros K ions names r OK U Few H. unfold mass_density. split; [eapply (total_skip ions names r U 1 160)|intro L1; eapply (each_within ions names r U 1 160)]; try exact L1; try lia;
    try (intros s I; apply ion_rho_gen, (us_known _ _ U s I)); intros s I; exact (term_rho K OK s (kof s) r (H s I)).
Qed.
Theorem C232_pressure : forall (K : consts b64) ions names c (r : row b64), ordinary K -> usable ions names -> (List.length names <= 40)%nat ->
  (forall s, In s names -> reading (r ("n", "", s)%string) /\ reading (r ("w", c, s)%string)) ->
  total_within (14 + List.length names) (pth K ions [PStr (join "+" names)] c) (pth (exact_consts K) ions [PStr (join "+" names)] c) r
  /\ (List.length names <> 1%nat -> columns_within 14 (pth K ions (map PStr names) c) (pth (exact_consts K) ions (map PStr names) c) r).
Proof.
  intros K ions names c r OK U Few H. unfold pth. split; [eapply (total_skip ions names r U 14 451)|intro L1; eapply (each_within ions names r U 14 451)]; try exact L1; try lia;
    try (intros s I; apply ion_pth_gen, (us_known _ _ U s I)); intros s I; exact (term_pth K OK c s (kof s) r (proj1 (H s I)) (proj2 (H s I))).
Qed.
Theorem C232_temperature : forall (K : consts b64) ions names c (r : row b64), ordinary K -> usable ions names -> (List.length names <= 40)%nat ->
  (forall s, In s names -> reading (r ("w", c, s)%string)) ->
  total_within (11 + List.length names) (temperature K ions [PStr (join "+" names)] c) (temperature (exact_consts K) ions [PStr (join "+" names)] c) r
  /\ (List.length names <> 1%nat -> columns_within 11 (temperature K ions (map PStr names) c) (temperature (exact_consts K) ions (map PStr names) c) r).
Proof.
  intros K ions names c r OK U Few H. unfold temperature. split; [eapply (total_skip ions names r U 11 358)|intro L1; eapply (each_within ions names r U 11 358)]; try exact L1; try lia;
    try (intros s I; apply ion_temp_gen, (us_known _ _ U s I)); intros s I; exact (term_temp K OK c s (kof s) r (H s I)).
Qed.
(** The field strength and its pressure: components of either sign, zeros allowed. *)
Theorem C232_field : forall (K : consts b64) (r : row b64), ordinary K -> field_ok r ->
  within 3 (bmag r) (bmag (exact_row r)) /\ within 16 (pb K r) (pb (exact_consts K) (exact_row r)).
Proof. intros K r OK B. split; [exact (rel_within _ _ _ _ (bmag_rel r B) ltac:(lia))|exact (rel_within _ _ _ _ (pb_rel K OK r B) ltac:(lia))]. Qed.
(** What is derived from them, on rows without gaps. *)
Theorem C232_beta : forall (K : consts b64) ions names c (r : row b64), ordinary K -> usable ions names -> (List.length names <= 40)%nat ->
  (forall s, In s names -> sized 50 (r ("n", "", s)%string) /\ sized 50 (r ("w", c, s)%string)) -> field_ok r ->
  total_within (31 + List.length names) (beta K ions [PStr (join "+" names)] c) (beta (exact_consts K) ions [PStr (join "+" names)] c) r.
Proof. intros K ions names c r OK U Few H B. apply beta_tot; try assumption; intros s I; apply (H s I). Qed.
Theorem C232_sound_speed : forall (K : consts b64) ions names (r : row b64), ordinary K -> usable ions names -> (List.length names <= 40)%nat ->
  (forall s, In s names -> sized 50 (r ("n", "", s)%string) /\ sized 50 (r ("w", "scalar", s)%string)) ->
  total_within (16 + List.length names) (sound_speed K ions [PStr (join "+" names)]) (sound_speed (exact_consts K) ions [PStr (join "+" names)]) r.
Proof. intros K ions names r OK U Few H. apply cs_tot; try assumption; intros s I; apply (H s I). Qed.
Theorem C232_alfven_speed : forall (K : consts b64) ions names (r : row b64), ordinary K -> usable ions names -> (List.length names <= 40)%nat ->
  (forall s, In s names -> sized 50 (r ("n", "", s)%string)) -> field_ok r ->
  total_within (15 + List.length names) (ca K ions [PStr (join "+" names)]) (ca (exact_consts K) ions [PStr (join "+" names)]) r.
Proof. intros K ions names r OK U Few H B. apply ca_tot; assumption. Qed.
Theorem C232_anisotropy : forall (K : consts b64) ions names (r : row b64), ordinary K -> usable ions names -> (List.length names <= 40)%nat ->
  (forall s, In s names -> sized 50 (r ("n", "", s)%string) /\ sized 50 (r ("w", "par", s)%string) /\ sized 50 (r ("w", "per", s)%string)) ->
  total_within (31 + 2 * List.length names) (anisotropy K ions [PStr (join "+" names)]) (anisotropy (exact_consts K) ions [PStr (join "+" names)]) r.
Proof. intros K ions names r OK U Few H. apply aniso_tot; try assumption; intros s I; apply (H s I). Qed.

(* a case: SI constants as doubles, two species, one of them without a density *)
Lemma sized_SF (x : b64) m e E : B2SF x = SpecFloat.S754_finite false m e -> (2 ^ 52 <= Zpos m <= 2 ^ 53)%Z -> (- E <= e + 52)%Z -> (e + 53 <= E)%Z -> sized E x.
Proof.
  intros H M L U. destruct (of_SF x m e H) as [_ [F V]]. split; [exact F|]. rewrite V. pose proof (bpow_gt_0 radix2 e).
  assert (bpow radix2 52 <= IZR (Zpos m)) by (change (bpow radix2 52) with (IZR (2 ^ 52)); apply IZR_le, M).
  assert (IZR (Zpos m) <= bpow radix2 53) by (change (bpow radix2 53) with (IZR (2 ^ 53)); apply IZR_le, M).
  split; [apply Rle_trans with (bpow radix2 52 * bpow radix2 e); [rewrite <- bpow_plus; apply bpow_le; lia|nra]|apply Rle_trans with (bpow radix2 53 * bpow radix2 e); [nra|rewrite <- bpow_plus; apply bpow_le; lia]].
Qed.
Ltac by_size := eapply sized_SF; [vm_compute; reflexivity|lia|lia|lia].
Definition nano (n : Z) (k : nat) : b64 := Nat.iter k (fun x => adiv x (aofZ 1000000000)) (aofZ n).
(* 1.672621e-27 kg, 9.10938e-31 kg, 6.644657e-27 kg, 3.972599689, 5.44617e-4, ... *)
Definition K232 : consts b64 := mkConsts (nano 1672621000 4) (nano 910938 4) (nano 6644657000 4) (nano 3972599689 1) (nano 544617 1) (nano 1007276467 1) (nano 4001506179 1) (nano 548580 1)
  (nano 160217663 3) (nano 13806 3) (nano 86173 1) (nano 1257 1) (nano 8854188 2).
Definition row232 : row b64 := fun k => let '(m, c, s) := k in
  if String.eqb m "n" then (if String.eqb s "a" then B754_nan else aofZ 5) else if String.eqb m "b" then (if String.eqb c "x" then aofZ (-3) else B754_zero false) else aofZ 40.
Example ordinary_232 : ordinary K232.
Proof. split; by_size. Qed.
Example usable_232 : usable ["a"; "p1"]%string ["p1"; "a"]%string.
Proof.
  split.
  - discriminate.
  - repeat constructor; cbn; intuition discriminate.
  - intros s [<-|[<-|[]]]; split; reflexivity.
  - intros s [<-|[<-|[]]]; cbn; auto.
  - intros s [<-|[<-|[]]]; eexists; reflexivity.
Qed.
Example readings_232 : forall s, In s ["p1"; "a"]%string -> reading (row232 ("n", "", s)%string) /\ reading (row232 ("w", "scalar", s)%string).
Proof. intros s [<-|[<-|[]]]; (split; [|right; right; by_size]); [right; right; by_size|left; reflexivity]. Qed.
Lemma of_SF_neg (x : b64) m e z : B2SF x = SpecFloat.S754_finite true m e -> IZR (Zneg m) * bpow radix2 e = z -> B2R x = z.
Proof. destruct x as [s|s| |s m' e' H]; cbn [B2SF]; intro E; try discriminate. injection E as -> -> ->. intros <-. reflexivity. Qed.
Example field_232 : field_ok row232.
Proof.
  assert (V : B2R (row232 ("b", "x", "")%string) = -3) by (apply (of_SF_neg _ 6755399441055744 (-51)) ; [vm_compute; reflexivity|change (bpow radix2 (-51)) with (/ 2251799813685248); lra]).
  split; [split; [reflexivity|right]|]; [|split; [split; [reflexivity|left; reflexivity]|split; [split; [reflexivity|left; reflexivity]|left; rewrite V; lra]]].
  rewrite V. replace (Rabs (-3)) with 3 by (rewrite Rabs_left; lra). split; [change 3 with (IZR 3); apply Rle_trans with (bpow radix2 0); [apply bpow_le; lia|cbn; lra]|apply Rle_trans with (bpow radix2 2); [cbn; lra|apply bpow_le; lia]].
Qed.
Example case_232 : total_within 16 (pth K232 ["a"; "p1"]%string [PStr (join "+" ["p1"; "a"]%string)] "scalar") (pth (exact_consts K232) ["a"; "p1"]%string [PStr (join "+" ["p1"; "a"]%string)] "scalar") row232.
Proof. exact (proj1 (C232_pressure K232 _ _ "scalar" row232 ordinary_232 usable_232 ltac:(cbn; lia) readings_232)). Qed.
Example case_232_proton : forall s, In s ["p1"]%string -> sized 50 (row232 ("n", "", s)%string) /\ sized 50 (row232 ("w", "par", s)%string) /\ sized 50 (row232 ("w", "per", s)%string).
Proof. intros s [<-|[]]. repeat split; by_size. Qed.
Print Assumptions C232_pressure.
Print Assumptions C232_beta.
Print Assumptions C232_sound_speed.
Print Assumptions C232_alfven_speed.
Print Assumptions C232_anisotropy.
