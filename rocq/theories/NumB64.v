(** IEEE 754 binary64 as an instance of [Arith], through Flocq (round to nearest even, one NaN, signed zeros, gradual underflow,
    overflow to infinity): the arithmetic numpy and pandas really do on float64 columns. A decimal literal n/d is the correctly rounded
    quotient when n and d are below 2^53, as all literals used here are.
    Simplification: NaN payloads are not kept; sums are taken in order, while numpy adds long arrays pairwise. *)
From Coq Require Import Reals Lra List Bool ZArith Lia Psatz.
From Flocq Require Import Core.Core IEEE754.BinarySingleNaN.
From Verif Require Import Num.
Import ListNotations.
Open Scope R_scope.

Notation b64 := (binary_float 53 1024).
#[global] Instance prec53 : FLX.Prec_gt_0 53. Proof. unfold FLX.Prec_gt_0. lia. Qed.
#[global] Instance emax1024 : Prec_lt_emax 53 1024. Proof. unfold Prec_lt_emax. lia. Qed.
Definition bZ (z : Z) : b64 := binary_normalize 53 1024 _ _ mode_NE z 0 false.
#[global] Instance ArithB64 : Arith b64 := {
  aofQ := fun n d => Bdiv mode_NE (bZ n) (bZ (Zpos d));
  anan := B754_nan;
  aadd := Bplus mode_NE; asub := Bminus mode_NE; amul := Bmult mode_NE; adiv := Bdiv mode_NE; asqrt := Bsqrt mode_NE;
  aopp := Bopp; aabs := Babs; altb := Bltb; aleb := Bleb; aeqb := Beqb; aisnan := is_nan; aisfin := is_finite }.

Notation fexp64 := (SpecFloat.fexp 53 1024).
Notation rnd := (round radix2 fexp64 (round_mode mode_NE)).
Notation MAXP := (bpow radix2 1024).
Lemma fexp_valid : Valid_exp fexp64. Proof. apply (fexp_correct 53 1024). apply prec53. Qed.
#[global] Existing Instance fexp_valid.
Lemma rnd_le x y : x <= y -> rnd x <= rnd y. Proof. apply round_le; apply _. Qed.
Lemma rnd_opp x : rnd (- x) = - rnd x. Proof. cbn [round_mode]. apply round_NE_opp. Qed.
Lemma rnd_0 : rnd 0 = 0. Proof. apply round_0. apply _. Qed.
Lemma rnd_id (x : b64) : rnd (B2R x) = B2R x. Proof. apply round_generic; [apply _|apply (generic_format_B2R 53 1024)]. Qed.
Lemma rnd_pos x : 0 <= x -> 0 <= rnd x. Proof. intro H. rewrite <- rnd_0. apply rnd_le, H. Qed.
Lemma B2R_lt (x : b64) : Rabs (B2R x) < MAXP. Proof. apply (abs_B2R_lt_emax 53 1024). Qed.
Lemma one_lt_max : 1 < MAXP. Proof. change 1 with (bpow radix2 0). apply bpow_lt. lia. Qed.
Lemma rnd_1 : rnd 1 = 1.
Proof.
  apply round_generic; [apply _|]. change 1 with (bpow radix2 0). apply generic_format_bpow. unfold SpecFloat.fexp, SpecFloat.emin. lia.
Qed.
Lemma rnd_unit x : -1 <= x <= 1 -> -1 <= rnd x <= 1.
Proof.
  intros [H1 H2]. pose proof (rnd_le _ _ H1) as G1. pose proof (rnd_le _ _ H2) as G2. rewrite rnd_1 in G2.
  replace (-1) with (- (1)) in G1 by lra. rewrite rnd_opp, rnd_1 in G1. lra.
Qed.

(** not NaN and not negative (+0, -0, a positive number or +infinity) *)
Definition nonneg (x : b64) : Prop := match x with B754_zero _ => True | B754_infinity s => s = false | B754_finite s _ _ _ => s = false | B754_nan => False end.
(** a number in [-1, 1] *)
Definition unit64 (x : b64) : Prop := is_finite x = true /\ -1 <= B2R x <= 1.
Lemma nonneg_B2R x : nonneg x -> 0 <= B2R x.
Proof. destruct x as [s|s| |s m e H]; cbn; intro N; try lra. subst s. apply F2R_ge_0. cbn. lia. Qed.
Lemma sign_le_0 (x : b64) : is_finite x = true -> nonneg x \/ B2R x < 0.
Proof. destruct x as [s|s| |s m e H]; cbn; try discriminate; auto. intros _. destruct s; [right; apply F2R_lt_0; cbn; lia|left; reflexivity]. Qed.
Lemma nonneg_of (x : b64) : is_finite x = true -> 0 <= B2R x -> nonneg x.
Proof. intros F P. destruct (sign_le_0 x F) as [H|H]; [exact H|lra]. Qed.
Lemma overflow_NE s : binary_overflow 53 1024 mode_NE s = SpecFloat.S754_infinity s. Proof. reflexivity. Qed.
Lemma B2SF_inf (x : b64) s : B2SF x = SpecFloat.S754_infinity s -> x = B754_infinity s.
Proof. destruct x; cbn; intro H; try discriminate. injection H as ->. reflexivity. Qed.

(** the four operations on finite arguments *)
Lemma add_fin (x y : b64) : is_finite x = true -> is_finite y = true ->
  (Rabs (rnd (B2R x + B2R y)) < MAXP /\ is_finite (aadd x y) = true /\ B2R (aadd x y) = rnd (B2R x + B2R y))
  \/ (MAXP <= Rabs (rnd (B2R x + B2R y)) /\ Bsign x = Bsign y /\ aadd x y = B754_infinity (Bsign x)).
Proof.
  intros Fx Fy. pose proof (Bplus_correct 53 1024 _ _ mode_NE x y Fx Fy) as H. change (aadd x y) with (Bplus mode_NE x y).
  destruct (Rlt_bool_spec (Rabs (rnd (B2R x + B2R y))) MAXP) as [L|L]; [left; tauto|right]. destruct H as [H S]. split; [exact L|]. split; [exact S|]. apply B2SF_inf. rewrite H. apply overflow_NE.
Qed.
Lemma sub_fin (x y : b64) : is_finite x = true -> is_finite y = true ->
  (Rabs (rnd (B2R x - B2R y)) < MAXP /\ is_finite (asub x y) = true /\ B2R (asub x y) = rnd (B2R x - B2R y))
  \/ (MAXP <= Rabs (rnd (B2R x - B2R y)) /\ Bsign x = negb (Bsign y) /\ asub x y = B754_infinity (Bsign x)).
Proof.
  intros Fx Fy. pose proof (Bminus_correct 53 1024 _ _ mode_NE x y Fx Fy) as H. change (asub x y) with (Bminus mode_NE x y).
  destruct (Rlt_bool_spec (Rabs (rnd (B2R x - B2R y))) MAXP) as [L|L]; [left; tauto|right]. destruct H as [H S]. split; [exact L|]. split; [exact S|]. apply B2SF_inf. rewrite H. apply overflow_NE.
Qed.
Lemma mul_fin (x y : b64) : is_finite x = true -> is_finite y = true ->
  (Rabs (rnd (B2R x * B2R y)) < MAXP /\ is_finite (amul x y) = true /\ B2R (amul x y) = rnd (B2R x * B2R y))
  \/ (MAXP <= Rabs (rnd (B2R x * B2R y)) /\ amul x y = B754_infinity (xorb (Bsign x) (Bsign y))).
Proof.
  intros Fx Fy. pose proof (Bmult_correct 53 1024 _ _ mode_NE x y) as H. change (amul x y) with (Bmult mode_NE x y).
  destruct (Rlt_bool_spec (Rabs (rnd (B2R x * B2R y))) MAXP) as [L|L]; [left|right].
  - destruct H as [H1 [H2 _]]. rewrite Fx, Fy in H2. auto.
  - split; [exact L|]. apply B2SF_inf. rewrite H. apply overflow_NE.
Qed.
Lemma div_fin (x y : b64) : is_finite x = true -> B2R y <> 0 ->
  (Rabs (rnd (B2R x / B2R y)) < MAXP /\ is_finite (adiv x y) = true /\ B2R (adiv x y) = rnd (B2R x / B2R y))
  \/ (MAXP <= Rabs (rnd (B2R x / B2R y)) /\ adiv x y = B754_infinity (xorb (Bsign x) (Bsign y))).
Proof.
  intros Fx Ny. pose proof (Bdiv_correct 53 1024 _ _ mode_NE x y Ny) as H. change (adiv x y) with (Bdiv mode_NE x y).
  destruct (Rlt_bool_spec (Rabs (rnd (B2R x / B2R y))) MAXP) as [L|L]; [left|right].
  - destruct H as [H1 [H2 _]]. rewrite Fx in H2. auto.
  - split; [exact L|]. apply B2SF_inf. rewrite H. apply overflow_NE.
Qed.

Lemma nonneg_sign (x : b64) : is_finite x = true -> nonneg x -> Bsign x = true -> B2R x = 0.
Proof. destruct x as [s|s| |s m e H]; cbn; intros _ N S; try reflexivity; try contradiction; congruence. Qed.
Lemma nonneg_add x y : nonneg x -> nonneg y -> nonneg (aadd x y).
Proof.
  intros Nx Ny.
  assert (C : forall z : b64, nonneg z -> is_finite z = true \/ z = B754_infinity false) by (intros [s|s| |s m e H]; cbn; intro Nz; subst; auto; contradiction).
  destruct (C x Nx) as [Fx| ->]; destruct (C y Ny) as [Fy| ->].
  - destruct (add_fin x y Fx Fy) as [[_ [F E]]|[L [S ->]]].
    + apply nonneg_of; [exact F|]. rewrite E. apply rnd_pos. pose proof (nonneg_B2R x Nx). pose proof (nonneg_B2R y Ny). lra.
    + cbn. destruct (Bsign x) eqn:Sx; [|reflexivity]. exfalso. rewrite (nonneg_sign x Fx Nx Sx), (nonneg_sign y Fy Ny (eq_sym S)), Rplus_0_r, rnd_0, Rabs_R0 in L. pose proof (bpow_gt_0 radix2 1024). lra.
  - destruct x as [s|s| |s m e H]; cbn in *; try discriminate; reflexivity.
  - destruct y as [s|s| |s m e H]; cbn in *; try discriminate; reflexivity.
  - reflexivity.
Qed.
Lemma nonneg_mul x y : nonneg x -> nonneg y -> is_nan (amul x y) = true \/ nonneg (amul x y).
Proof.
  intros Nx Ny. destruct (is_finite x) eqn:Fx; [destruct (is_finite y) eqn:Fy|].
  - right. destruct (mul_fin x y Fx Fy) as [[_ [F E]]|[L E]].
    + apply nonneg_of; [exact F|]. rewrite E. apply rnd_pos. apply Rmult_le_pos; apply nonneg_B2R; assumption.
    + destruct x as [s|s| |s m e H]; cbn in Fx, Nx; try discriminate; destruct y as [s'|s'| |s' m' e' H']; cbn in Fy, Ny; try discriminate;
        try (cbn [B2R] in L; rewrite ?Rmult_0_l, ?Rmult_0_r, rnd_0, Rabs_R0 in L; pose proof (bpow_gt_0 radix2 1024); lra).
      rewrite E. subst. reflexivity.
  - destruct x as [s|s| |s m e H]; cbn in Fx, Nx; try discriminate; try contradiction; destruct y as [s'|s'| |s' m' e' H']; cbn in Ny; try discriminate; try contradiction; subst; cbn; auto.
  - destruct x as [s|s| |s m e H]; cbn in Fx, Nx; try discriminate; try contradiction; destruct y as [s'|s'| |s' m' e' H']; cbn in Ny; try discriminate; try contradiction; subst; cbn; auto.
Qed.
(** a square is NaN (of NaN) or not negative *)
Lemma nonneg_sq x : is_nan x = false -> nonneg (asq x).
Proof.
  intro N. unfold asq. destruct (is_finite x) eqn:Fx.
  - destruct (mul_fin x x Fx Fx) as [[_ [F E]]|[_ ->]]; [|destruct (Bsign x); reflexivity].
    apply nonneg_of; [exact F|]. rewrite E. apply rnd_pos. nra.
  - destruct x as [s|s| |s m e H]; try discriminate. destruct s; reflexivity.
Qed.
Lemma nan_sq x : is_nan x = true -> is_nan (asq x) = true.
Proof. destruct x; try discriminate. reflexivity. Qed.
Lemma nonneg_nan x : nonneg x -> is_nan x = false. Proof. destruct x; cbn; auto; contradiction. Qed.
Lemma nonneg_sum_skip (l : list b64) : (forall x, In x l -> is_nan x = false -> nonneg x) -> nonneg (sum_skip l).
Proof.
  unfold sum_skip. assert (G : forall l acc, nonneg acc -> (forall x, In x l -> is_nan x = false -> nonneg x) -> nonneg (fold_left (fun a x => if aisnan x then a else aadd a x) l acc)).
  { clear. induction l as [|x l IH]; intros acc Na H; [exact Na|]. cbn [fold_left]. apply IH; [|intros; apply H; [right|]; assumption].
    change (aisnan x) with (is_nan x). destruct (is_nan x) eqn:E; [exact Na|]. apply nonneg_add; [exact Na|]. apply H; [left; reflexivity|exact E]. }
  apply G. cbv. exact I.
Qed.
(** (a-b)/(a+b) for non-negative a, b: NaN or a number in [-1, 1], whatever is rounded, underflows or overflows *)
Lemma normalised_difference (a b : b64) : nonneg a -> nonneg b -> is_nan (adiv (asub a b) (aadd a b)) = true \/ unit64 (adiv (asub a b) (aadd a b)).
Proof.
  intros Na Nb. destruct (is_finite a) eqn:Fa; [destruct (is_finite b) eqn:Fb|].
  - pose proof (nonneg_B2R a Na) as Pa. pose proof (nonneg_B2R b Nb) as Pb.
    assert (Ls : rnd (B2R a - B2R b) <= rnd (B2R a + B2R b)) by (apply rnd_le; lra).
    assert (Li : - rnd (B2R a + B2R b) <= rnd (B2R a - B2R b)) by (rewrite <- rnd_opp; apply rnd_le; lra).
    assert (Sm : Rabs (rnd (B2R a - B2R b)) < MAXP).
    { assert (Ha : Rabs (B2R a) < MAXP) by apply B2R_lt. assert (Hb : Rabs (B2R b) < MAXP) by apply B2R_lt. rewrite Rabs_pos_eq in Ha, Hb by assumption.
      assert (rnd (B2R a - B2R b) <= B2R a) by (rewrite <- (rnd_id a) at 2; apply rnd_le; lra).
      assert (- B2R b <= rnd (B2R a - B2R b)) by (rewrite <- (rnd_id b) at 1; rewrite <- rnd_opp; apply rnd_le; lra).
      apply Rabs_def1; lra. }
    destruct (sub_fin a b Fa Fb) as [[_ [Fd Ed]]|[X _]]; [|lra].
    destruct (add_fin a b Fa Fb) as [[_ [Fs Es]]|[Xs [S E]]].
    + destruct (Req_dec (B2R (aadd a b)) 0) as [Z|NZ].
      * left. assert (D0 : B2R (asub a b) = 0) by (rewrite Ed; rewrite Es in Z; lra). revert Fd Fs Z D0. generalize (asub a b) (aadd a b). intros d s Fd Fs Z D0.
        destruct d as [sd|sd| |sd md ed Hd]; try discriminate; [|exfalso; apply (F2R_neq_0 radix2) in D0; [exact D0|cbn; destruct sd; discriminate]].
        destruct s as [ss|ss| |ss ms es Hs]; try discriminate; [|exfalso; apply (F2R_neq_0 radix2) in Z; [exact Z|cbn; destruct ss; discriminate]]. reflexivity.
      * right. set (s := aadd a b) in *. set (d := asub a b) in *. assert (Ps : 0 < B2R s) by (pose proof (rnd_pos (B2R a + B2R b) ltac:(lra)); lra).
        assert (U : -1 <= B2R d / B2R s <= 1).
        { split; [apply (Rmult_le_reg_r (B2R s)); [exact Ps|]|apply (Rmult_le_reg_r (B2R s)); [exact Ps|]]; unfold Rdiv; rewrite Rmult_assoc, Rinv_l, Rmult_1_r by exact NZ; lra. }
        pose proof (rnd_unit _ U) as RU. destruct (div_fin d s Fd NZ) as [[_ [F E]]|[L _]]; [split; [exact F|rewrite E; exact RU]|].
        exfalso. pose proof one_lt_max. assert (Rabs (rnd (B2R d / B2R s)) <= 1) by (apply Rabs_le; exact RU). lra.
    + right. rewrite E. revert Fd. generalize (asub a b). intros d Fd. destruct d as [sd|sd| |sd md ed Hd]; try discriminate; (split; [reflexivity|cbn; lra]).
  - destruct a as [s|s| |s m e H]; cbn in Fa; try discriminate; destruct b as [s'|s'| |s' m' e' H']; cbn in Fb, Nb; try discriminate; try contradiction; subst; left; reflexivity.
  - destruct a as [s|s| |s m e H]; cbn in Fa, Na; try discriminate; try contradiction; destruct b as [s'|s'| |s' m' e' H']; cbn in Nb; try discriminate; try contradiction; subst; left; reflexivity.
Qed.
