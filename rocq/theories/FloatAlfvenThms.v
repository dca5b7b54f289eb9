(** Alfvenic energies and normalised quantities in double precision: how far they are from their formulas. *)
From Coq Require Import Reals Lra List Bool ZArith Lia Psatz String.
From Flocq Require Import Core.Core Relative Plus_error IEEE754.BinarySingleNaN.
From Verif Require Import Py Num NumB64 Plasma Alfven Float64Thms FloatErrorThms PlasmaMore.
Import ListNotations.
Open Scope R_scope.

(** a signed term: NaN, zero, or a number [k] roundings from the exact one *)
Definition sterm (k : nat) (e : Z) (x : b64) (X : XR) : Prop :=
  is_nan x = true /\ X = NaN \/ is_finite x = true /\ B2R x = 0 /\ X = Fin 0 \/ exists r, X = Fin r /\ is_finite x = true /\ near k e (Babs x) (Rabs r).

Lemma sq_abs k e x r : is_finite x = true -> near k e (Babs x) (Rabs r) -> (k + k <= 1000)%nat -> (e + e <= 1000)%Z -> near (S (k + k)) (e + e) (asq x) (r * r).
Proof.
  intros F N K E. pose proof (near_mul _ _ _ _ _ _ _ _ N N K E) as M. rewrite <- Rabs_mult, Rabs_pos_eq in M by nra.
  assert (Fa : is_finite (Babs x) = true) by apply N. apply (near_eq _ _ _ _ _ M); unfold asq in *.
  - destruct (mul_fin x x F F) as [[_ [G _]]|[L _]]; [exact G|exfalso]. destruct (mul_fin (Babs x) (Babs x) Fa Fa) as [[L' _]|[_ E']].
    + rewrite B2R_Babs, <- Rabs_mult, (Rabs_pos_eq (B2R x * B2R x)) in L' by nra. lra.
    + pose proof (proj1 M) as G. rewrite E' in G. discriminate G.
  - destruct (mul_fin x x F F) as [[_ [_ V]]|[L _]]; destruct (mul_fin (Babs x) (Babs x) Fa Fa) as [[L' [_ V']]|[L' E']].
    + rewrite V, V', B2R_Babs, <- Rabs_mult, (Rabs_pos_eq (B2R x * B2R x)) by nra. reflexivity.
    + pose proof (proj1 M) as G. rewrite E' in G. discriminate G.
    + rewrite B2R_Babs, <- Rabs_mult, (Rabs_pos_eq (B2R x * B2R x)) in L' by nra. lra.
    + pose proof (proj1 M) as G. rewrite E' in G. discriminate G.
Qed.
Lemma sterm_sq k e x X : sterm k e x X -> (k + k <= 1000)%nat -> (e + e <= 1000)%Z -> term (S (k + k)) (e + e) (asq x) (asq X).
Proof.
  intros [[N ->]|[[F [Z ->]]|[r [-> [F N]]]]] K E.
  - left. split; [apply mul_nan_l, N|reflexivity].
  - right; left. destruct (mul_zero x x F F (or_introl Z)) as [G V]. rewrite fin_sq, Rmult_0_l. auto.
  - right; right. exists (r * r). split; [apply fin_sq|]. apply sq_abs; assumption.
Qed.

(** a component of a fluctuation: missing, or of either sign, zero or of ordinary size *)
Definition fluctuation (x : b64) : Prop := is_nan x = true \/ comp_ok x.
Lemma exact_nan x : is_nan x = true -> exact x = NaN. Proof. destruct x; try discriminate. reflexivity. Qed.
Lemma sterm_fluct x : fluctuation x -> sterm 0 50 x (exact x).
Proof.
  intros [N|[F [Z|S]]]; [left|right; left|right; right].
  - split; [exact N|apply exact_nan, N].
  - rewrite (exact_fin x F), Z. auto.
  - exists (B2R x). split; [apply exact_fin, F|]. split; [exact F|]. split; [rewrite is_finite_Babs; exact F|]. split; [exact S|]. rewrite B2R_Babs. cbn. lra.
Qed.
(** doubles of ordinary size are whole multiples of 2^-102 *)
Lemma grid x : comp_ok x -> exists z, B2R x = IZR z * bpow radix2 (-102).
Proof.
  intros [F [Z|[S _]]]; [exists 0%Z; rewrite Z; ring|]. pose proof (generic_format_B2R 53 1024 x) as G.
  assert (NZ : B2R x <> 0) by (intro E; rewrite E, Rabs_R0 in S; pose proof (bpow_gt_0 radix2 (-50)); lra).
  assert (C : (-102 <= cexp radix2 fexp64 (B2R x))%Z).
  { unfold cexp. pose proof (mag_ge_bpow radix2 (B2R x) (-49) S) as M. unfold SpecFloat.fexp. lia. }
  unfold generic_format in G. exists (Ztrunc (scaled_mantissa radix2 fexp64 (B2R x)) * 2 ^ (cexp radix2 fexp64 (B2R x) + 102))%Z.
  rewrite G at 1. unfold F2R. cbn [Fnum Fexp]. rewrite mult_IZR. change 2%Z with (radix_val radix2). rewrite IZR_Zpower by lia. rewrite Rmult_assoc, <- bpow_plus. f_equal. f_equal. lia.
Qed.
Lemma near_one e (x : b64) r : is_finite x = true -> bpow radix2 (- e) <= Rabs r <= bpow radix2 e -> (e <= 1000)%Z -> B2R x = rnd r -> near 1 e (Babs x) (Rabs r).
Proof.
  intros F S E V. destruct (step64 0 e (Rabs r) (Rabs r) ltac:(lia) E S ltac:(cbn; lra) ltac:(cbn; lra)) as [_ [A B]].
  split; [rewrite is_finite_Babs; exact F|]. split; [exact S|]. rewrite B2R_Babs, V.
  assert (EA : Rabs (rnd r) = rnd (Rabs r)).
  { destruct (Rle_dec 0 r) as [P|P]; [rewrite (Rabs_pos_eq r), Rabs_pos_eq by (try exact P; apply rnd_pos, P); reflexivity|]. rewrite (Rabs_left r) by lra. rewrite rnd_opp. apply Rabs_left1. rewrite <- rnd_0. apply rnd_le. lra. }
  rewrite EA. auto.
Qed.
Lemma sum_small x y : comp_ok x -> comp_ok y -> Rabs (B2R x + B2R y) <= bpow radix2 51 /\ Rabs (B2R x - B2R y) <= bpow radix2 51.
Proof.
  assert (B : forall z, comp_ok z -> Rabs (B2R z) <= bpow radix2 50) by (intros z [_ [Z|S]]; [rewrite Z, Rabs_R0; apply bpow_ge_0|apply S]).
  intros Hx Hy. pose proof (B x Hx). pose proof (B y Hy). replace (bpow radix2 51) with (bpow radix2 50 + bpow radix2 50) by (change 51%Z with (50 + 1)%Z; rewrite bpow_plus; change (bpow radix2 1) with 2; ring).
  split; [apply Rle_trans with (1 := Rabs_triang _ _)|unfold Rminus; apply Rle_trans with (1 := Rabs_triang _ _); rewrite Rabs_Ropp]; lra.
Qed.
Lemma grid_far z : IZR z * bpow radix2 (-102) <> 0 -> bpow radix2 (-102) <= Rabs (IZR z * bpow radix2 (-102)).
Proof.
  intro H. rewrite Rabs_mult, (Rabs_pos_eq (bpow radix2 (-102))) by apply bpow_ge_0. assert (z <> 0)%Z by (intro E; apply H; rewrite E; ring). rewrite <- abs_IZR. pose proof (bpow_gt_0 radix2 (-102)). assert (1 <= IZR (Z.abs z)) by (apply IZR_le; lia). nra.
Qed.
Lemma sterm_add x y : fluctuation x -> fluctuation y -> sterm 1 102 (aadd x y) (aadd (exact x) (exact y)).
Proof.
  intros [Nx|Hx] Hy; [left; split; [|rewrite (exact_nan x Nx); reflexivity]; destruct x; try discriminate; reflexivity|].
  destruct Hy as [Ny|Hy]; [left; split; [|rewrite (exact_nan y Ny), (exact_fin x (proj1 Hx)); reflexivity]; destruct y; try discriminate; destruct x; reflexivity|].
  rewrite (exact_fin x (proj1 Hx)), (exact_fin y (proj1 Hy)), fin_add. destruct (grid x Hx) as [zx Gx]. destruct (grid y Hy) as [zy Gy]. destruct (sum_small x y Hx Hy) as [SU _].
  assert (Gs : B2R x + B2R y = IZR (zx + zy) * bpow radix2 (-102)) by (rewrite Gx, Gy, plus_IZR; ring).
  destruct (Req_dec (B2R x + B2R y) 0) as [Z|NZ].
  - right; left. destruct (add_fin x y (proj1 Hx) (proj1 Hy)) as [[_ [F V]]|[L _]]; rewrite Z, ?rnd_0 in *; [rewrite V; auto|]. rewrite Rabs_R0 in L. pose proof (bpow_gt_0 radix2 1024). lra.
  - right; right. assert (S : bpow radix2 (- (102)) <= Rabs (B2R x + B2R y) <= bpow radix2 102).
    { split; [rewrite Gs in *; apply grid_far, NZ|]. apply Rle_trans with (1 := SU). apply bpow_le. lia. }
    exists (B2R x + B2R y). split; [reflexivity|]. destruct (add_fin x y (proj1 Hx) (proj1 Hy)) as [[_ [F V]]|[L _]]; [split; [exact F|exact (near_one 102 _ _ F S ltac:(lia) V)]|].
    exfalso. assert (Rabs (rnd (B2R x + B2R y)) <= bpow radix2 51) by (apply abs_round_le_generic; [apply _|apply _|apply generic_format_bpow; unfold SpecFloat.fexp, SpecFloat.emin; lia|exact SU]). pose proof (bpow_lt radix2 51 1024 ltac:(lia)). lra.
Qed.
Lemma sterm_sub x y : fluctuation x -> fluctuation y -> sterm 1 102 (asub x y) (asub (exact x) (exact y)).
Proof.
  intros [Nx|Hx] Hy; [left; split; [|rewrite (exact_nan x Nx); reflexivity]; destruct x; try discriminate; reflexivity|].
  destruct Hy as [Ny|Hy]; [left; split; [|rewrite (exact_nan y Ny), (exact_fin x (proj1 Hx)); reflexivity]; destruct y; try discriminate; destruct x; reflexivity|].
  rewrite (exact_fin x (proj1 Hx)), (exact_fin y (proj1 Hy)), fin_sub. destruct (grid x Hx) as [zx Gx]. destruct (grid y Hy) as [zy Gy]. destruct (sum_small x y Hx Hy) as [_ SU].
  assert (Gs : B2R x - B2R y = IZR (zx - zy) * bpow radix2 (-102)) by (rewrite Gx, Gy, minus_IZR; ring).
  destruct (Req_dec (B2R x - B2R y) 0) as [Z|NZ].
  - right; left. destruct (sub_fin x y (proj1 Hx) (proj1 Hy)) as [[_ [F V]]|[L _]]; rewrite Z, ?rnd_0 in *; [rewrite V; auto|]. rewrite Rabs_R0 in L. pose proof (bpow_gt_0 radix2 1024). lra.
  - right; right. assert (S : bpow radix2 (- (102)) <= Rabs (B2R x - B2R y) <= bpow radix2 102).
    { split; [rewrite Gs in *; apply grid_far, NZ|]. apply Rle_trans with (1 := SU). apply bpow_le. lia. }
    exists (B2R x - B2R y). split; [reflexivity|]. destruct (sub_fin x y (proj1 Hx) (proj1 Hy)) as [[_ [F V]]|[L _]]; [split; [exact F|exact (near_one 102 _ _ F S ltac:(lia) V)]|].
    exfalso. assert (Rabs (rnd (B2R x - B2R y)) <= bpow radix2 51) by (apply abs_round_le_generic; [apply _|apply _|apply generic_format_bpow; unfold SpecFloat.fexp, SpecFloat.emin; lia|exact SU]). pose proof (bpow_lt radix2 51 1024 ltac:(lia)). lra.
Qed.

(* ------------------------------------------------------------------ energies *)
Definition exact_vec (v : vec b64) : vec XR := let '(x, y, z) := v in (exact x, exact y, exact z).
Definition exact_arow (r : arow (T := b64)) : arow (T := XR) :=
  {| a_v := exact_vec (a_v r); a_b := exact_vec (a_b r); a_pol := option_map exact (a_pol r) |}.
Definition fluctuations (v : vec b64) : Prop := let '(x, y, z) := v in fluctuation x /\ fluctuation y /\ fluctuation z.
(** a row: fluctuations of ordinary size and, if a polarity is used, one of +1 and -1 *)
Definition usual (r : arow (T := b64)) : Prop := fluctuations (a_v r) /\ fluctuations (a_b r) /\ (a_pol r = None \/ a_pol r = Some (aofZ 1) \/ a_pol r = Some (aofZ (-1))).

Lemma neg_one64 : is_finite (aofZ (-1) : b64) = true /\ B2R (aofZ (-1) : b64) = -1.
Proof. split; [vm_compute; reflexivity|]. apply (of_SF_neg _ 4503599627370496 (-52)); [vm_compute; reflexivity|]. change (bpow radix2 (-52)) with (/ 4503599627370496). lra. Qed.
Lemma mul_unit (x p : b64) : comp_ok x -> is_finite p = true -> B2R p = 1 \/ B2R p = -1 -> comp_ok (amul x p) /\ B2R (amul x p) = B2R x * B2R p.
Proof.
  intros [F S] Fp Hp. assert (G : rnd (B2R x * B2R p) = B2R x * B2R p).
  { destruct Hp as [Hp|Hp]; rewrite Hp; [rewrite Rmult_1_r; apply rnd_id|]. replace (B2R x * -1) with (- B2R x) by ring. rewrite rnd_opp, rnd_id. reflexivity. }
  assert (Ab : Rabs (B2R x * B2R p) = Rabs (B2R x)) by (rewrite Rabs_mult; destruct Hp as [Hp|Hp]; rewrite Hp; [rewrite Rabs_R1|rewrite (Rabs_left (-1)) by lra]; ring).
  destruct (mul_fin x p F Fp) as [[_ [Fm V]]|[L _]]; [|rewrite G, Ab in L; pose proof (B2R_lt x); lra]. rewrite G in V. split; [|exact V]. split; [exact Fm|]. rewrite V, Ab.
  destruct S as [Z|S]; [left; rewrite Z; ring|right; exact S].
Qed.
Lemma fluct_pol x p : fluctuation x -> p = aofZ 1 \/ p = aofZ (-1) -> fluctuation (amul x p) /\ exact (amul x p) = amul (exact x) (exact p).
Proof.
  intros H Hp. assert (P : is_finite p = true /\ (B2R p = 1 \/ B2R p = -1)) by (destruct Hp as [->| ->]; [destruct one64 as [F V]|destruct neg_one64 as [F V]]; auto).
  destruct P as [Fp Vp]. destruct H as [N|C].
  - split; [left; apply mul_nan_l, N|]. rewrite (exact_nan _ (mul_nan_l _ _ N)), (exact_nan x N). reflexivity.
  - destruct (mul_unit x p C Fp Vp) as [C' V]. split; [right; exact C'|]. rewrite (exact_fin _ (proj1 C')), (exact_fin x (proj1 C)), (exact_fin p Fp), fin_mul, V. reflexivity.
Qed.
(** the field used has the same size and is exact *)
Lemma al_b_ok r : usual r -> fluctuations (al_b r) /\ al_b (exact_arow r) = exact_vec (al_b r).
Proof.
  intros [_ [Hb Hp]]. destruct r as [v [[x y] z] pol]. cbn [a_v a_b a_pol] in *. unfold al_b, exact_arow. cbn [a_v a_b a_pol]. destruct Hb as [Hx [Hy Hz]]. destruct Hp as [->|Hp].
  - cbn [option_map]. split; [split; auto|reflexivity].
  - assert (E : exists p, pol = Some p /\ (p = aofZ 1 \/ p = aofZ (-1))) by (destruct Hp as [->| ->]; eauto). destruct E as [p [-> Pp]]. cbn [option_map].
    destruct (fluct_pol x p Hx Pp) as [Fx Ex]. destruct (fluct_pol y p Hy Pp) as [Fy Ey]. destruct (fluct_pol z p Hz Pp) as [Fz Ez]. unfold vbuild, vcomp, exact_vec. split; [split; auto|]. rewrite Ex, Ey, Ez. reflexivity.
Qed.

(** sum of squares, NaN skipped *)
Lemma energy_term k e v V : (let '(x, y, z) := v in let '(x', y', z') := V in sterm k e x x' /\ sterm k e y y' /\ sterm k e z z') -> (k <= 100)%nat -> (0 <= e <= 200)%Z ->
  acc (2 * k + 3) 3 (2 * e + 1) (energy v) (energy V).
Proof.
  destruct v as [[x y] z]. destruct V as [[x' y'] z']. intros [Hx [Hy Hz]] K E.
  pose proof (sum_skip_acc (S (k + k)) (e + e) _ _ (Forall2_cons _ _ (sterm_sq _ _ _ _ Hx ltac:(lia) ltac:(lia)) (Forall2_cons _ _ (sterm_sq _ _ _ _ Hy ltac:(lia) ltac:(lia)) (Forall2_cons _ _ (sterm_sq _ _ _ _ Hz ltac:(lia) ltac:(lia)) (Forall2_nil _)))) ltac:(cbn; lia) ltac:(lia) ltac:(cbn; lia)) as A.
  cbn [List.length] in A. unfold energy, sumsq_skip, vcomp. assert (Hh : rel 1 1 (Alfven.half (T := b64)) (Alfven.half (T := XR))) by exact rel_half.
  destruct A as [[F [Z E0]]|R'].
  - left. destruct Hh as [h [-> N]]. destruct (mul_zero (Alfven.half (T := b64)) _ (proj1 N) F (or_intror Z)) as [G V]. split; [exact G|]. split; [exact V|]. rewrite E0, fin_mul, Rmult_0_r. reflexivity.
  - right. pose proof (rel_mul _ _ _ _ _ _ _ _ Hh R' ltac:(lia) ltac:(lia)) as G. apply (rel_weak _ _ _ _ _ _ G); lia.
Qed.

Lemma acc_fin k n e x X : acc k n e x X -> (k + n <= 1000)%nat ->
  exists p, X = Fin p /\ is_finite x = true /\ 0 <= p /\ 0 <= B2R x /\ Rabs (B2R x - p) <= INR (k + n) * bpow radix2 (-52) * p.
Proof.
  intros A K. pose proof (acc_within _ _ _ _ _ A K) as W. destruct A as [[F [Z ->]]|[p [-> N]]].
  - exists 0. rewrite Z. split; [reflexivity|]. split; [exact F|]. split; [lra|]. split; [lra|]. rewrite Rminus_0_r, Rabs_R0. lra.
  - destruct (near_pos _ _ _ _ N) as [P P']. exists p. destruct W as [F W]. rewrite (Rabs_pos_eq p) in W by lra. split; [reflexivity|]. split; [exact F|]. split; [lra|]. split; [lra|]. exact W.
Qed.
Lemma acc_term k n e x X : acc k n e x X -> term (k + n) (e + Z.of_nat n) x X.
Proof. intros [[F [Z ->]]|H]; [right; left; auto|right; right; exact H]. Qed.
Lemma acc_flat k n e x X : acc k n e x X -> acc (k + n) 0 (e + Z.of_nat n) x X.
Proof. intros [H|H]; [left; exact H|right; apply (rel_weak _ _ _ _ _ _ H); lia]. Qed.
Lemma acc_notnan k n e x X : acc k n e x X -> is_nan x = false.
Proof. intros [[F _]|[r [_ [F _]]]]; apply fin_notnan, F. Qed.
Lemma acc_add k n e x y X Y : acc k n e x X -> acc k n e y Y -> (k + n < 1000)%nat -> (0 <= e)%Z -> (e + Z.of_nat n < 1000)%Z ->
  acc (k + n) 1 (e + Z.of_nat n) (aadd x y) (aadd X Y).
Proof. intros A B K E E'. apply acc_step; [apply acc_flat, A|apply acc_term, B|exact (acc_notnan _ _ _ _ _ B)|lia|lia|lia]. Qed.

Lemma zero_form (x : b64) : is_finite x = true -> B2R x = 0 -> exists s, x = B754_zero s.
Proof. destruct x as [s|s| |s m e H]; try discriminate; [eauto|]. intros _ Z. exfalso. cbn [B2R] in Z. apply (F2R_neq_0 radix2) in Z; [exact Z|cbn; destruct s; discriminate]. Qed.
(** the real analysis: relative errors d of both parts and d' of the sum, one rounding of the difference *)
Lemma quotient_error p m a b D s u d d' : 0 <= p -> 0 <= m -> 0 < p + m -> 0 <= d <= / 1000 -> 0 <= d' <= / 1000 -> 0 <= u <= / 1000 ->
  Rabs (a - p) <= d * p -> Rabs (b - m) <= d * m -> Rabs (D - (a - b)) <= u * Rabs (a - b) -> Rabs (s - (p + m)) <= d' * (p + m) ->
  Rabs (D / s - (p - m) / (p + m)) <= (d + 2 * u + d') * (1 + 2 * d') /\ Rabs (D / s) <= 2.
Proof.
  intros P M S Hd Hd' Hu A B HD HS. apply Rabs_le_inv in A. apply Rabs_le_inv in B. apply Rabs_le_inv in HS.
  assert (AB : Rabs (a - b) <= (1 + d) * (p + m)) by (apply Rabs_le; nra).
  assert (D1 : Rabs (D - (a - b)) <= 2 * u * (p + m)) by (assert (W : (1 + d) * (p + m) <= 2 * (p + m)) by (apply Rmult_le_compat_r; lra); apply Rle_trans with (1 := HD); apply Rle_trans with (u * (2 * (p + m))); [apply Rmult_le_compat_l; lra|right; ring]).
  apply Rabs_le_inv in D1. assert (D2 : Rabs (D - (p - m)) <= (d + 2 * u) * (p + m)) by (apply Rabs_le; nra).
  assert (s0 : 0 < s) by nra.
  assert (Q : Rabs (D / s - (p - m) / (p + m)) * s <= (d + 2 * u + d') * (p + m)).
  { replace (Rabs (D / s - (p - m) / (p + m)) * s) with (Rabs ((D - (p - m)) + (p - m) / (p + m) * ((p + m) - s))).
    2:{ rewrite <- (Rabs_pos_eq s) at 3 by lra. rewrite <- Rabs_mult. f_equal. field. lra. }
    apply Rle_trans with (1 := Rabs_triang _ _). rewrite Rabs_mult. assert (Z : Rabs ((p - m) / (p + m)) <= 1).
    { unfold Rdiv. rewrite Rabs_mult, (Rabs_pos_eq (/ (p + m))) by (left; apply Rinv_0_lt_compat, S). apply Rmult_le_reg_r with (p + m); [exact S|]. rewrite Rmult_assoc, Rinv_l by lra. rewrite Rmult_1_r, Rmult_1_l. apply Rabs_le. lra. }
    assert (Y : Rabs (p + m - s) <= d' * (p + m)) by (apply Rabs_le; lra). pose proof (Rabs_pos (p + m - s)). pose proof (Rabs_pos ((p - m) / (p + m))). nra. }
  assert (SS : p + m <= s * (1 + 2 * d')) by nra. split.
  - apply Rmult_le_reg_r with s; [exact s0|]. apply Rle_trans with (1 := Q). rewrite Rmult_assoc, (Rmult_comm (1 + 2 * d')). apply Rmult_le_compat_l; lra.
  - unfold Rdiv. rewrite Rabs_mult, (Rabs_pos_eq (/ s)) by (left; apply Rinv_0_lt_compat, s0). apply Rmult_le_reg_r with s; [exact s0|]. rewrite Rmult_assoc, Rinv_l, Rmult_1_r by lra. apply Rabs_le_inv in D2. apply Rabs_le. nra.
Qed.
Lemma zero_of x : Rabs (x - 0) <= 0 -> x = 0. Proof. intro H. apply Rabs_le_inv in H. lra. Qed.
Lemma normalised_error k e a b A B : acc k 0 e a A -> acc k 0 e b B -> (k <= 10)%nat -> (0 <= e <= 400)%Z ->
  let X := adiv (asub A B) (aadd A B) in let x := adiv (asub a b) (aadd a b) in
  (X = NaN /\ is_nan x = true) \/ exists r, X = Fin r /\ is_finite x = true /\ Rabs (B2R x - r) <= bpow radix2 (-47).
Proof.
  intros HA HB K E X x. pose proof (acc_add k 0 e a b A B HA HB ltac:(lia) ltac:(lia) ltac:(lia)) as HS. rewrite Nat.add_0_r, Z.add_0_r in HS.
  destruct (acc_fin _ _ _ _ _ HA ltac:(lia)) as [p [EA [Fa [P [Pa Ea]]]]]. destruct (acc_fin _ _ _ _ _ HB ltac:(lia)) as [m [EB [Fb [M [Mb Eb]]]]].
  destruct (acc_fin _ _ _ _ _ HS ltac:(lia)) as [s [ES [Fs [Sp [Sb Es]]]]]. unfold X. rewrite ES. rewrite EA, EB, fin_add in ES. injection ES as ES. rewrite EA, EB, fin_sub.
  assert (KB : forall j, (j <= 11)%nat -> 0 <= INR j * bpow radix2 (-52) <= 11 * bpow radix2 (-52)).
  { intros j Hj. apply le_INR in Hj. replace (INR 11) with 11 in Hj by (cbn; lra). pose proof (pos_INR j). pose proof (bpow_gt_0 radix2 (-52)). nra. }
  assert (U52 : bpow radix2 (-52) = / 4503599627370496) by reflexivity.
  assert (SUB : is_finite (asub a b) = true /\ exists eps, Rabs eps <= / 9007199254740992 /\ B2R (asub a b) = (B2R a - B2R b) * (1 + eps)).
  { destruct (FLT_plus_error_N_ex radix2 (-1074) 53 (fun z => negb (Z.even z)) (B2R a) (- B2R b) (generic_format_B2R 53 1024 a) (generic_format_opp _ _ _ (generic_format_B2R 53 1024 b))) as [eps [He Ve]].
    change (round radix2 (FLT_exp (-1074) 53) ZnearestE (B2R a + - B2R b)) with (rnd (B2R a - B2R b)) in Ve.
    assert (He' : Rabs eps <= / 9007199254740992).
    { apply Rle_trans with (1 := He). assert (UR : u_ro radix2 53 = / 9007199254740992) by (unfold u_ro; change (bpow radix2 (- (53) + 1)) with (/ 4503599627370496); lra). rewrite UR. apply Rmult_le_reg_r with (1 + / 9007199254740992); [lra|]. unfold Rdiv. rewrite Rmult_assoc, Rinv_l by lra. lra. }
    destruct (sub_fin a b Fa Fb) as [[_ [F V]]|[L [S _]]].
    - split; [exact F|]. exists eps. split; [exact He'|]. rewrite V. exact Ve.
    - exfalso. assert (Ha : rnd (B2R a - B2R b) <= B2R a) by (rewrite <- (rnd_id a) at 2; apply rnd_le; lra).
      assert (Hb : - B2R b <= rnd (B2R a - B2R b)) by (rewrite <- (rnd_id b) at 1; rewrite <- rnd_opp; apply rnd_le; lra).
      pose proof (B2R_lt a) as La. pose proof (B2R_lt b) as Lb. rewrite Rabs_pos_eq in La, Lb by assumption. apply (Rlt_not_le _ _ (Rabs_def1 _ _ (Rle_lt_trans _ _ _ Ha La) (Rlt_le_trans _ _ _ (Ropp_lt_contravar _ _ Lb) Hb))). exact L. }
  destruct SUB as [Fd [eps [He Vd]]].
  destruct (Req_dec s 0) as [Z|NZ].
  - left. assert (p = 0 /\ m = 0) as [-> ->] by lra. rewrite Z. split; [rewrite Rminus_0_r; exact PlasmaMore.div_zero_zero|].
    rewrite Rmult_0_r in Ea, Eb. assert (A0 : B2R a = 0) by (apply zero_of; lra).
    assert (B0 : B2R b = 0) by (apply zero_of; lra).
    rewrite Z, Rmult_0_r in Es. assert (S0 : B2R (aadd a b) = 0) by (apply zero_of; lra).
    assert (D0 : B2R (asub a b) = 0) by (rewrite Vd, A0, B0; ring). destruct (zero_form _ Fd D0) as [s1 E1]. destruct (zero_form _ Fs S0) as [s2 E2]. change (is_nan (adiv (asub a b) (aadd a b)) = true). rewrite E1, E2. reflexivity.
  - right. assert (S0 : 0 < s) by lra. exists ((p - m) / (p + m)). split; [rewrite <- ES in *; apply fin_div; exact NZ|].
    rewrite <- ES in Es. pose proof (KB (k + 0)%nat ltac:(lia)) as KB0. pose proof (KB (k + 1)%nat ltac:(lia)) as KB1.
    destruct (quotient_error p m (B2R a) (B2R b) (B2R (asub a b)) (B2R (aadd a b)) (/ 9007199254740992) (INR (k + 0) * bpow radix2 (-52)) (INR (k + 1) * bpow radix2 (-52))) as [Q1 Q2]; try lra.
    { rewrite Vd. replace ((B2R a - B2R b) * (1 + eps) - (B2R a - B2R b)) with (eps * (B2R a - B2R b)) by ring. rewrite Rabs_mult. apply Rmult_le_compat_r; [apply Rabs_pos|exact He]. }
    set (t := B2R (asub a b) / B2R (aadd a b)) in *.
    assert (NS : B2R (aadd a b) <> 0). { intro Z. rewrite Z in Es. apply Rabs_le_inv in Es. nra. }
    destruct (error_N_FLT radix2 (-1074) 53 ltac:(lia) (fun z => negb (Z.even z)) t) as [e1 [e2 [H1 [H2 [_ V]]]]]. change (round radix2 (FLT_exp (-1074) 53) ZnearestE t) with (rnd t) in V.
    assert (H1' : Rabs e1 <= / 9007199254740992) by (apply Rle_trans with (1 := H1); change (bpow radix2 (- (53) + 1)) with (/ 4503599627370496); lra).
    assert (H2' : Rabs e2 <= / 9007199254740992).
    { apply Rle_trans with (1 := H2). apply Rle_trans with (bpow radix2 (-53)); [|right; reflexivity]. pose proof (bpow_gt_0 radix2 (-1074)). pose proof (bpow_le radix2 (-1074) (-53) ltac:(lia)). lra. }
    assert (RT : Rabs (rnd t - t) <= 3 * / 9007199254740992).
    { rewrite V. replace (t * (1 + e1) + e2 - t) with (t * e1 + e2) by ring. apply Rle_trans with (1 := Rabs_triang _ _). rewrite Rabs_mult. pose proof (Rabs_pos t). pose proof (Rabs_pos e1). nra. }
    assert (FT : Rabs (rnd t) < MAXP).
    { apply Rle_lt_trans with 4; [|change 4 with (bpow radix2 2); apply bpow_lt; lia]. replace (rnd t) with ((rnd t - t) + t) by ring. apply Rle_trans with (1 := Rabs_triang _ _). lra. }
    unfold x. destruct (div_fin (asub a b) (aadd a b) Fd NS) as [[_ [F V']]|[L _]]; [|fold t in L; lra]. split; [exact F|]. rewrite V'. fold t.
    replace (rnd t - (p - m) / (p + m)) with ((rnd t - t) + (t - (p - m) / (p + m))) by ring. apply Rle_trans with (1 := Rabs_triang _ _).
    apply Rle_trans with (3 * / 9007199254740992 + (11 * / 4503599627370496 + 2 * / 9007199254740992 + 11 * / 4503599627370496) * (1 + / 100)); [|change (bpow radix2 (-47)) with (/ 140737488355328); lra].
    apply Rplus_le_compat; [exact RT|]. apply Rle_trans with (1 := Q1). apply Rmult_le_compat; lra.
Qed.

Section Rows.
  Variable r : arow (T := b64).
  Hypothesis U : usual r.
  Lemma comps : exists x y z a b c, a_v r = (x, y, z) /\ al_b r = (a, b, c) /\ (fluctuation x /\ fluctuation y /\ fluctuation z) /\ (fluctuation a /\ fluctuation b /\ fluctuation c)
    /\ a_v (exact_arow r) = (exact x, exact y, exact z) /\ al_b (exact_arow r) = (exact a, exact b, exact c).
  Proof.
    destruct (al_b_ok r U) as [Fb Eb]. pose proof (proj1 U) as Fv. unfold exact_arow. cbn [a_v]. destruct (a_v r) as [[x y] z] eqn:Ev. destruct (al_b r) as [[a b] c] eqn:Ea.
    exists x, y, z, a, b, c. fold (exact_arow r). split; [reflexivity|]. split; [reflexivity|]. split; [exact Fv|]. split; [exact Fb|]. split; [reflexivity|]. exact Eb.
  Qed.
  Lemma acc_v : acc 3 3 101 (e_v r) (e_v (exact_arow r)).
  Proof. destruct comps as [x [y [z [a [b [c [E1 [E2 [[H1 [H2 H3]] [_ [E3 _]]]]]]]]]]]. unfold e_v. rewrite E1, E3. apply (energy_term 0 50); [|lia|lia]. auto using sterm_fluct. Qed.
  Lemma acc_b : acc 3 3 101 (e_b r) (e_b (exact_arow r)).
  Proof. destruct comps as [x [y [z [a [b [c [E1 [E2 [_ [[H1 [H2 H3]] [_ E4]]]]]]]]]]]. unfold e_b. rewrite E2, E4. apply (energy_term 0 50); [|lia|lia]. auto using sterm_fluct. Qed.
  Lemma acc_plus : acc 5 3 205 (e_plus r) (e_plus (exact_arow r)).
  Proof.
    destruct comps as [x [y [z [a [b [c [E1 [E2 [[H1 [H2 H3]] [[H4 [H5 H6]] [E3 E4]]]]]]]]]]]. unfold e_plus, zplus. rewrite E1, E2, E3, E4. apply (energy_term 1 102); [|lia|lia]. unfold vbuild, vcomp. auto using sterm_add.
  Qed.
  Lemma acc_minus : acc 5 3 205 (e_minus r) (e_minus (exact_arow r)).
  Proof.
    destruct comps as [x [y [z [a [b [c [E1 [E2 [[H1 [H2 H3]] [[H4 [H5 H6]] [E3 E4]]]]]]]]]]]. unfold e_minus, zminus. rewrite E1, E2, E3, E4. apply (energy_term 1 102); [|lia|lia]. unfold vbuild, vcomp. auto using sterm_sub.
  Qed.
End Rows.

(* ------------------------------------------------------------------ C233 *)
(** Energies, also those of nearly cancelling fluctuations: at most 8 units of 2^-52 relative error. *)
Theorem C233_energies : forall r, usual r ->
  within 6 (e_v r) (e_v (exact_arow r)) /\ within 6 (e_b r) (e_b (exact_arow r)) /\ within 7 (e_tot r) (e_tot (exact_arow r))
  /\ within 8 (e_plus r) (e_plus (exact_arow r)) /\ within 8 (e_minus r) (e_minus (exact_arow r)).
Proof.
  intros r U. split; [exact (acc_within _ _ _ _ _ (acc_v r U) ltac:(lia))|]. split; [exact (acc_within _ _ _ _ _ (acc_b r U) ltac:(lia))|].
  split; [exact (acc_within _ _ _ _ _ (acc_add _ _ _ _ _ _ _ (acc_v r U) (acc_b r U) ltac:(lia) ltac:(lia) ltac:(lia)) ltac:(lia))|].
  split; [exact (acc_within _ _ _ _ _ (acc_plus r U) ltac:(lia))|exact (acc_within _ _ _ _ _ (acc_minus r U) ltac:(lia))].
Qed.
(** The normalised quantities: NaN together, or within 2^-47 (7.2e-15) of each other. *)
Theorem C233_normalised : forall r, usual r ->
  (sigma_c (exact_arow r) = NaN /\ is_nan (sigma_c r) = true \/ exists s, sigma_c (exact_arow r) = Fin s /\ is_finite (sigma_c r) = true /\ Rabs (B2R (sigma_c r) - s) <= bpow radix2 (-47))
  /\ (sigma_r (exact_arow r) = NaN /\ is_nan (sigma_r r) = true \/ exists s, sigma_r (exact_arow r) = Fin s /\ is_finite (sigma_r r) = true /\ Rabs (B2R (sigma_r r) - s) <= bpow radix2 (-47)).
Proof.
  intros r U. split.
  - exact (normalised_error 8 208 _ _ _ _ (acc_flat _ _ _ _ _ (acc_plus r U)) (acc_flat _ _ _ _ _ (acc_minus r U)) ltac:(lia) ltac:(lia)).
  - exact (normalised_error 6 104 _ _ _ _ (acc_flat _ _ _ _ _ (acc_v r U)) (acc_flat _ _ _ _ _ (acc_b r U)) ltac:(lia) ltac:(lia)).
Qed.
Lemma acc_ratio k n e x X y Y : acc k n e x X -> acc k n e y Y -> Y <> Fin 0 -> (2 * (k + n) < 900)%nat -> (0 <= e)%Z -> (2 * (e + Z.of_nat n) <= 1000)%Z -> within (S (2 * (k + n))) (adiv x y) (adiv X Y).
Proof.
  intros A [[_ [_ E]]|[s [-> N]]] NZ K E0 B; [congruence|]. destruct (near_pos _ _ _ _ N) as [S0 Y0]. destruct A as [[F [Z ->]]|R'].
  - rewrite fin_div by lra. assert (Q : 0 / s = 0) by (field; lra). rewrite Q. assert (Qb : B2R x / B2R y = 0) by (rewrite Z; field; lra).
    destruct (div_fin x y F ltac:(lra)) as [[_ [G V]]|[L _]]; rewrite Qb, rnd_0 in *; [split; [exact G|rewrite V, Rminus_0_r, Rabs_R0; lra]|]. rewrite Rabs_R0 in L. pose proof (bpow_gt_0 radix2 1024). lra.
  - pose proof (rel_div _ _ _ _ _ _ _ _ R' (ex_intro _ s (conj eq_refl N)) ltac:(lia) ltac:(lia)) as G. apply (rel_within _ (2 * (e + Z.of_nat n))); [|lia]. apply (rel_weak _ _ _ _ _ _ G); lia.
Qed.
Theorem C233_ratios : forall r, usual r ->
  (e_b (exact_arow r) <> Fin 0 -> within 13 (alfven_ratio r) (alfven_ratio (exact_arow r)))
  /\ (e_plus (exact_arow r) <> Fin 0 -> within 17 (elsasser_ratio r) (elsasser_ratio (exact_arow r))).
Proof.
  intros r U. split; intro H.
  - exact (acc_ratio 3 3 101 _ _ _ _ (acc_v r U) (acc_b r U) H ltac:(lia) ltac:(lia) ltac:(lia)).
  - exact (acc_ratio 5 3 205 _ _ _ _ (acc_minus r U) (acc_plus r U) H ltac:(lia) ltac:(lia) ltac:(lia)).
Qed.
(* a row whose z+ nearly cancels, with a missing component and a reversed polarity *)
Definition row233 : arow (T := b64) := {| a_v := (bZ 1000000001, bZ 3, B754_nan); a_b := (bZ 1000000000, bZ (-4), bZ 2); a_pol := Some (aofZ (-1)) |}.
Lemma comp_int z : (0 < Z.abs z < 2 ^ 50)%Z -> comp_ok (bZ z).
Proof.
  intro B. destruct (bZ_ok z ltac:(lia)) as [F V]. split; [exact F|]. right. rewrite V, <- abs_IZR. split.
  - apply Rle_trans with 1; [change 1 with (bpow radix2 0); apply bpow_le; lia|apply IZR_le; lia].
  - change (bpow radix2 50) with (IZR (2 ^ 50)). apply IZR_le. lia.
Qed.
Example usual_233 : usual row233.
Proof.
  split; [|split]; cbn [row233 a_v a_b a_pol fluctuations]; [| |auto].
  - split; [right; apply comp_int; lia|]. split; [right; apply comp_int; lia|left; reflexivity].
  - split; [right; apply comp_int; lia|]. split; right; apply comp_int; lia.
Qed.
Print Assumptions C233_energies.
Print Assumptions C233_normalised.
Print Assumptions C233_ratios.
