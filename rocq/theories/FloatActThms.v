(** Normalised sunspot numbers in double precision: scaling to [0, 1] survives rounding. *)
From Coq Require Import Reals Lra List Bool ZArith Lia Psatz.
From Flocq Require Import Core.Core Relative Plus_error IEEE754.BinarySingleNaN.
From Verif Require Import Py Num NumB64 Solar Activity Float64Thms FloatErrorThms FloatHistThms.
Import ListNotations.
Open Scope R_scope.

(* ------------------------------------------------------------------ specification *)
(** missing, or a number whose differences do not overflow *)
Definition moderate (x : b64) : Prop := is_nan x = true \/ (is_finite x = true /\ Rabs (B2R x) <= bpow radix2 1022).
(** missing, or a number between 0 and 1 *)
Definition unit_or_nan (x : b64) : Prop := is_nan x = true \/ (is_finite x = true /\ 0 <= B2R x <= 1).
Definition present (x : b64) : Prop := is_nan x = false.
(** [x] is a largest / smallest of the numbers in the group *)
Definition largest (g : list b64) (x : b64) : Prop := In x g /\ present x /\ forall y, In y g -> present y -> B2R y <= B2R x.
Definition smallest (g : list b64) (x : b64) : Prop := In x g /\ present x /\ forall y, In y g -> present y -> B2R x <= B2R y.

Lemma series_min_in (l : list b64) : (forall x, In x l -> aisnan x = false -> is_finite x = true) -> (exists x, In x l /\ aisnan x = false) ->
  In (series_min l) l /\ is_finite (series_min l) = true /\ forall x, In x l -> aisnan x = false -> B2R (series_min l) <= B2R x.
Proof.
  intros F [x0 [I0 N0]].
  assert (G : forall r x, is_finite x = true -> (forall y, In y r -> is_finite y = true) ->
    let m := fold_left (fun m y => if altb y m then y else m) r x in In m (x :: r) /\ is_finite m = true /\ forall y, In y (x :: r) -> B2R m <= B2R y).
  { induction r as [|y r IH]; intros x Fx Fr m.
    - unfold m. cbn [fold_left]. split; [left; reflexivity|]. split; [exact Fx|]. intros y [<-|[]]. apply Rle_refl.
    - assert (Fy : is_finite y = true) by (apply Fr; left; reflexivity). assert (E : altb y x = Rltb (B2R y) (B2R x)) by (rewrite exact_ltb, !exact_fin by assumption; reflexivity).
      unfold m. cbn [fold_left]. rewrite E. destruct (Rltb (B2R y) (B2R x)) eqn:L.
      + apply Rltb_true in L. destruct (IH y Fy) as [A [B C]]; [intros z I; apply Fr; right; exact I|]. split; [right; exact A|]. split; [exact B|].
        intros z [<-|I]; [|apply C, I]. specialize (C y (or_introl eq_refl)). lra.
      + apply Rltb_false in L. destruct (IH x Fx) as [A [B C]]; [intros z I; apply Fr; right; exact I|]. split; [destruct A as [A|A]; [left; exact A|right; right; exact A]|]. split; [exact B|].
        intros z [<-|[<-|I]]; [apply C; left; reflexivity| |apply C; right; exact I]. specialize (C x (or_introl eq_refl)). lra. }
  assert (IC : forall x, In x (clean l) <-> In x l /\ aisnan x = false) by (intro x; unfold clean; rewrite filter_In, negb_true_iff; reflexivity).
  unfold series_min. destruct (clean l) as [|x r] eqn:E; [destruct (proj2 (IC x0) (conj I0 N0))|].
  destruct (G r x) as [A [B C]].
  - apply F; apply IC; left; reflexivity.
  - intros y I. apply F; apply IC; right; exact I.
  - split; [apply IC, A|]. split; [exact B|]. intros y I N. apply C, IC. auto.
Qed.
Lemma moderate_fin x : moderate x -> is_nan x = false -> is_finite x = true /\ Rabs (B2R x) <= bpow radix2 1022.
Proof. intros [N|H] NN; [congruence|exact H]. Qed.
(** differences of moderate numbers *)
Lemma sub_moderate x y : moderate x -> moderate y -> is_nan x = false -> is_nan y = false -> is_finite (asub x y) = true /\ B2R (asub x y) = rnd (B2R x - B2R y).
Proof.
  intros Mx My Nx Ny. destruct (moderate_fin x Mx Nx) as [Fx Bx]. destruct (moderate_fin y My Ny) as [Fy By].
  destruct (sub_fin x y Fx Fy) as [[_ H]|[H _]]; [exact H|].
  assert (L : Rabs (rnd (B2R x - B2R y)) <= bpow radix2 1023).
  { apply abs_round_le_generic; [apply fexp_valid|apply _|apply generic_format_bpow; cbn; lia|]. apply Rabs_le_inv in Bx. apply Rabs_le_inv in By.
    replace (bpow radix2 1023) with (bpow radix2 1022 + bpow radix2 1022) by (change (bpow radix2 1023) with (bpow radix2 (1022 + 1)); rewrite bpow_plus; change (bpow radix2 1) with 2; ring).
    apply Rabs_le. lra. }
  assert (bpow radix2 1023 < MAXP) by (apply bpow_lt; lia). lra.
Qed.
(** a difference vanishes only where the numbers agree: gradual underflow *)
Lemma sub_nonzero (x y : b64) : B2R x <> B2R y -> rnd (B2R x - B2R y) <> 0.
Proof.
  intro D. unfold Rminus. apply round_plus_neq_0; [apply fexp_valid|apply monotone_exp_not_FTZ; [apply fexp_valid|apply mono64]|apply _|apply (generic_format_B2R 53 1024)|apply generic_format_opp, (generic_format_B2R 53 1024)|lra].
Qed.

Section Group.
  Variable g : list b64.
  Hypothesis mod_g : forall x, In x g -> moderate x.
  Lemma g_fin x : In x g -> aisnan x = false -> is_finite x = true. Proof. intros I N. apply (moderate_fin x (mod_g x I) N). Qed.
  Lemma ends x : In x g -> present x -> smallest g (series_min g) /\ largest g (series_max g).
  Proof.
    intros I N. destruct (series_min_in g g_fin (ex_intro _ x (conj I N))) as [A [B C]]. destruct (series_max_in g g_fin (ex_intro _ x (conj I N))) as [A' [B' C']].
    split; (split; [assumption|]; split; [|assumption]); unfold present; [destruct (series_min g)|destruct (series_max g)]; try discriminate; reflexivity.
  Qed.
  Lemma largest_val x y : largest g x -> largest g y -> B2R x = B2R y.
  Proof. intros [I [N A]] [I' [N' A']]. apply Rle_antisym; auto. Qed.
  Lemma smallest_val x y : smallest g x -> smallest g y -> B2R x = B2R y.
  Proof. intros [I [N A]] [I' [N' A']]. apply Rle_antisym; auto. Qed.
  Lemma feature_value lo hi x : smallest g lo -> largest g hi -> B2R lo < B2R hi -> In x g -> present x ->
    is_finite (norm1 ByFeature g x) = true /\ B2R (norm1 ByFeature g x) = rnd (rnd (B2R x - B2R lo) / rnd (B2R hi - B2R lo)) /\ 0 <= B2R (norm1 ByFeature g x) <= 1.
  Proof.
    intros Lo Hi D I N. destruct (ends x I N) as [Lo' Hi']. rewrite (smallest_val _ _ Lo Lo') in *. rewrite (largest_val _ _ Hi Hi') in *. clear lo hi Lo Hi.
    set (lo := series_min g) in *. set (hi := series_max g) in *. change (norm1 ByFeature g x) with (adiv (asub x lo) (asub hi lo)).
    destruct (sub_moderate x lo (mod_g x I) (mod_g lo (proj1 Lo')) N (proj1 (proj2 Lo'))) as [F1 V1]. destruct (sub_moderate hi lo (mod_g hi (proj1 Hi')) (mod_g lo (proj1 Lo')) (proj1 (proj2 Hi')) (proj1 (proj2 Lo'))) as [F2 V2].
    pose proof (proj2 (proj2 Lo') x I N) as A. pose proof (proj2 (proj2 Hi') x I N) as B.
    assert (P : 0 < B2R (asub hi lo)). { rewrite V2. assert (rnd (B2R hi - B2R lo) <> 0) by (apply sub_nonzero; lra). assert (0 <= rnd (B2R hi - B2R lo)) by (apply rnd_pos; lra). lra. }
    destruct (unit_quotient (asub x lo) (asub hi lo) F1 F2) as [Q1 [Q2 Q3]]; [|exact P|].
    - rewrite V1, V2. split; [apply rnd_pos; lra|apply rnd_le; lra].
    - split; [exact Q1|]. split; [rewrite Q2, V1, V2; reflexivity|exact Q3].
  Qed.
End Group.
(** C236 *)
Theorem C236_feature : forall g lo hi, (forall x, In x g -> moderate x) -> smallest g lo -> largest g hi -> B2R lo < B2R hi ->
  (forall x, In x g -> present x -> is_finite (norm1 ByFeature g x) = true /\ 0 <= B2R (norm1 ByFeature g x) <= 1)
  /\ B2R (norm1 ByFeature g lo) = 0 /\ B2R (norm1 ByFeature g hi) = 1
  /\ (forall x y, In x g -> In y g -> present x -> present y -> B2R x <= B2R y -> B2R (norm1 ByFeature g x) <= B2R (norm1 ByFeature g y))
  /\ forall x, is_nan x = true -> is_nan (norm1 ByFeature g x) = true.
Proof.
  intros g lo hi M Lo Hi D. assert (V : forall x, In x g -> present x -> _) by (intros x; apply (feature_value g M lo hi x Lo Hi D)).
  assert (P : 0 < rnd (B2R hi - B2R lo)). { assert (rnd (B2R hi - B2R lo) <> 0) by (apply sub_nonzero; lra). assert (0 <= rnd (B2R hi - B2R lo)) by (apply rnd_pos; lra). lra. }
  split; [intros x I N; destruct (V x I N) as [A [_ B]]; auto|]. split; [|split; [|split]].
  - destruct (V lo (proj1 Lo) (proj1 (proj2 Lo))) as [_ [-> _]]. replace (B2R lo - B2R lo) with 0 by ring. rewrite rnd_0. unfold Rdiv. rewrite Rmult_0_l. apply rnd_0.
  - destruct (V hi (proj1 Hi) (proj1 (proj2 Hi))) as [_ [-> _]]. replace (rnd (B2R hi - B2R lo) / rnd (B2R hi - B2R lo)) with 1 by (field; lra). apply rnd_1.
  - intros x y Ix Iy Nx Ny L. destruct (V x Ix Nx) as [_ [-> _]]. destruct (V y Iy Ny) as [_ [-> _]]. apply rnd_le. apply Rmult_le_compat_r; [left; apply Rinv_0_lt_compat, P|]. apply rnd_le. lra.
  - intros x N. unfold norm1. assert (S1 : asub x (series_min g) = B754_nan) by (destruct x; try discriminate; destruct (series_min g); reflexivity). rewrite S1, nan_div64; reflexivity.
Qed.
Theorem C236_max : forall g hi, (forall x, In x g -> moderate x) -> (forall x, In x g -> present x -> 0 <= B2R x) -> largest g hi -> 0 < B2R hi ->
  (forall x, In x g -> present x -> is_finite (norm1 ByMax g x) = true /\ B2R (norm1 ByMax g x) = rnd (B2R x / B2R hi) /\ 0 <= B2R (norm1 ByMax g x) <= 1)
  /\ B2R (norm1 ByMax g hi) = 1
  /\ (forall x y, In x g -> In y g -> present x -> present y -> B2R x <= B2R y -> B2R (norm1 ByMax g x) <= B2R (norm1 ByMax g y))
  /\ forall x, is_nan x = true -> is_nan (norm1 ByMax g x) = true.
Proof.
  intros g hi M Pos Hi D.
  assert (V : forall x, In x g -> present x -> is_finite (norm1 ByMax g x) = true /\ B2R (norm1 ByMax g x) = rnd (B2R x / B2R hi) /\ 0 <= B2R (norm1 ByMax g x) <= 1).
  { intros x I N. destruct (ends g M x I N) as [_ Hi']. rewrite (largest_val g _ _ Hi Hi') in *. change (norm1 ByMax g x) with (adiv x (series_max g)).
    apply unit_quotient; [apply (g_fin g M x I N)|apply (g_fin g M _ (proj1 Hi') (proj1 (proj2 Hi')))| |exact D]. split; [apply Pos; assumption|apply Hi'; assumption]. }
  split; [exact V|]. split; [|split].
  - destruct (V hi (proj1 Hi) (proj1 (proj2 Hi))) as [_ [-> _]]. replace (B2R hi / B2R hi) with 1 by (field; lra). apply rnd_1.
  - intros x y Ix Iy Nx Ny L. destruct (V x Ix Nx) as [_ [-> _]]. destruct (V y Iy Ny) as [_ [-> _]]. apply rnd_le. apply Rmult_le_compat_r; [left; apply Rinv_0_lt_compat, D|exact L].
  - intros x N. unfold norm1. rewrite nan_div64 by exact N. reflexivity.
Qed.
(** the whole column, each sample with its own cycle: never outside [0, 1], whatever the cycles *)
Theorem C236_column : forall cs data, (forall s, In s data -> moderate (snd s)) ->
  (forall v, In v (run_normalization ByFeature cs data) -> unit_or_nan v)
  /\ ((forall s, In s data -> is_nan (snd s) = false -> 0 <= B2R (snd s)) -> forall v, In v (run_normalization ByMax cs data) -> unit_or_nan v).
Proof.
  intros cs data M.
  assert (G : forall s c, In s data -> find (fun c => in_ivl (fst s) (c_all c)) cs = Some c -> In (snd s) (cycle_values cs c data) /\ forall x, In x (cycle_values cs c data) -> exists r, In r data /\ x = snd r).
  { intros s c I F. apply find_some in F. destruct F as [_ F]. split.
    - unfold cycle_values. apply in_map, filter_In. auto.
    - intros x J. unfold cycle_values in J. apply in_map_iff in J. destruct J as [r [<- J]]. apply filter_In in J. exists r. split; [apply J|reflexivity]. }
  split.
  - intros v I. unfold run_normalization in I. apply in_map_iff in I. destruct I as [s [<- I]]. destruct (find _ cs) as [c|] eqn:F; [|left; reflexivity].
    destruct (G s c I F) as [A B]. set (g := cycle_values cs c data) in *. clearbody g. assert (Mg : forall x, In x g -> moderate x) by (intros x J; destruct (B x J) as [r [Ir ->]]; apply M, Ir).
    destruct (is_nan (snd s)) eqn:N.
    + left. unfold norm1. assert (S1 : asub (snd s) (series_min g) = B754_nan) by (destruct (snd s); try discriminate; destruct (series_min g); reflexivity). rewrite S1, nan_div64; reflexivity.
    + destruct (ends g Mg (snd s) A N) as [Lo Hi]. destruct (Rle_lt_or_eq_dec (B2R (series_min g)) (B2R (series_max g))) as [D|D]; [apply Hi; [apply Lo|apply Lo]| |].
      * right. destruct (feature_value g Mg _ _ (snd s) Lo Hi D A N) as [X [_ Y]]. auto.
      * left. unfold norm1. destruct (sub_moderate _ _ (Mg _ A) (Mg _ (proj1 Lo)) N (proj1 (proj2 Lo))) as [F1 V1].
        destruct (sub_moderate _ _ (Mg _ (proj1 Hi)) (Mg _ (proj1 Lo)) (proj1 (proj2 Hi)) (proj1 (proj2 Lo))) as [F2 V2].
        rewrite zero_div64; [reflexivity|exact F1|exact F2| |].
        -- rewrite V1. pose proof (proj2 (proj2 Lo) _ A N). pose proof (proj2 (proj2 Hi) _ A N). replace (B2R (snd s) - B2R (series_min g)) with 0 by lra. apply rnd_0.
        -- rewrite V2. replace (B2R (series_max g) - B2R (series_min g)) with 0 by lra. apply rnd_0.
  - intros Pos v I. unfold run_normalization in I. apply in_map_iff in I. destruct I as [s [<- I]]. destruct (find _ cs) as [c|] eqn:F; [|left; reflexivity].
    destruct (G s c I F) as [A B]. set (g := cycle_values cs c data) in *. clearbody g. assert (Mg : forall x, In x g -> moderate x) by (intros x J; destruct (B x J) as [r [Ir ->]]; apply M, Ir).
    assert (Pg : forall x, In x g -> present x -> 0 <= B2R x) by (intros x J; destruct (B x J) as [r [Ir ->]]; apply Pos, Ir).
    destruct (is_nan (snd s)) eqn:N; [left; unfold norm1; rewrite nan_div64 by exact N; reflexivity|].
    destruct (ends g Mg (snd s) A N) as [_ Hi]. pose proof (Pg _ A N) as P0. pose proof (proj2 (proj2 Hi) _ A N) as Le.
    destruct (Rle_lt_or_eq_dec 0 (B2R (series_max g)) (Rle_trans _ _ _ P0 Le)) as [D|D].
    + right. change (norm1 ByMax g (snd s)) with (adiv (snd s) (series_max g)). destruct (unit_quotient (snd s) (series_max g)) as [X [_ Y]]; [apply (g_fin g Mg _ A N)|apply (g_fin g Mg _ (proj1 Hi) (proj1 (proj2 Hi)))|lra|exact D|auto].
    + left. change (norm1 ByMax g (snd s)) with (adiv (snd s) (series_max g)). rewrite zero_div64; [reflexivity|apply (g_fin g Mg _ A N)|apply (g_fin g Mg _ (proj1 Hi) (proj1 (proj2 Hi)))|lra|lra].
Qed.
(** a case: a missing value among 3, 5 and 11 *)
Example C236_case : let g : list b64 := [aofZ 3; anan; aofZ 5; aofZ 11] in
  (forall x, In x g -> moderate x) /\ smallest g (aofZ 3) /\ largest g (aofZ 11) /\ B2R (aofZ 3 : b64) < B2R (aofZ 11 : b64)
  /\ map (fun x => B2SF (norm1 ByFeature g x)) g = [SpecFloat.S754_zero false; SpecFloat.S754_nan; B2SF (aofQ 1 4 : b64); B2SF (aofZ 1 : b64)].
Proof.
  assert (V : forall z, (Z.abs z < 2 ^ 53)%Z -> is_finite (aofZ z : b64) = true /\ B2R (aofZ z : b64) = IZR z).
  { intros z L. destruct (bZ_ok z L) as [F V]. destruct (bZ_ok 1 ltac:(lia)) as [F1 V1]. change (aofZ z : b64) with (adiv (bZ z) (bZ 1)).
    assert (Q : rnd (B2R (bZ z) / B2R (bZ 1)) = B2R (bZ z)) by (rewrite V1; unfold Rdiv; rewrite Rinv_1, Rmult_1_r; apply rnd_id).
    destruct (div_fin (bZ z) (bZ 1) F ltac:(rewrite V1; lra)) as [[_ [G X]]|[G _]]; [split; [exact G|rewrite X, Q; exact V]|]. rewrite Q in G. pose proof (B2R_lt (bZ z)). lra. }
  destruct (V 3%Z ltac:(lia)) as [F3 V3]. destruct (V 5%Z ltac:(lia)) as [F5 V5]. destruct (V 11%Z ltac:(lia)) as [F11 V11].
  assert (P : forall x : b64, is_finite x = true -> is_nan x = false) by (intros [s|s| |s m e H]; try discriminate; reflexivity).
  assert (B : 11 <= bpow radix2 1022) by (apply Rle_trans with (bpow radix2 4); [change (bpow radix2 4) with 16; lra|apply bpow_le; lia]).
  intro g. split; [|split; [|split; [|split]]].
  - intros x I. unfold g in I. destruct I as [<-|[<-|[<-|[<-|[]]]]]; [right|left; reflexivity|right|right]; (split; [assumption|]); rewrite ?V3, ?V5, ?V11; apply Rabs_le; lra.
  - split; [left; reflexivity|]. split; [apply P, F3|]. intros y I N. unfold g in I. destruct I as [<-|[<-|[<-|[<-|[]]]]]; [lra|discriminate N|lra|lra].
  - split; [right; right; right; left; reflexivity|]. split; [apply P, F11|]. intros y I N. unfold g in I. destruct I as [<-|[<-|[<-|[<-|[]]]]]; [lra|discriminate N|lra|lra].
  - lra.
  - lazy. reflexivity.
Qed.
