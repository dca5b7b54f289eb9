(** Histograms in double precision: the tables of counts are exact, and normalisation is one correct rounding. *)
From Coq Require Import Reals Lra List Bool ZArith Lia Psatz.
From Flocq Require Import Core.Core Relative IEEE754.BinarySingleNaN.
From Verif Require PlasmaMore.
From Verif Require Import Py Num NumB64 Sort Activity Hist HistThms Float64Thms FloatErrorThms.
Import ListNotations.
Open Scope R_scope.

(* ------------------------------------------------------------------ specification *)
(** the double is the number [X] correctly rounded to double precision; NaN is NaN and an infinity is that infinity *)
Definition rounded (x : b64) (X : XR) : Prop :=
  match X with
  | Fin r => is_finite x = true /\ B2R x = rnd r
  | NaN => is_nan x = true
  | PInf => x = B754_infinity false
  | MInf => x = B754_infinity true
  end.
(** the same data, limits and edges as exact numbers *)
Definition exact_row3 (r : b64 * b64 * b64) : XR * XR * XR := (exact (fst (fst r)), exact (snd (fst r)), exact (snd r)).
Definition exact_lim (l : option b64 * option b64) : option XR * option XR := (option_map exact (fst l), option_map exact (snd l)).
(** no colour limits; every row counts once *)
Definition nolim64 : option b64 * option b64 := (None, None).
Definition weight_one (data : list (b64 * b64 * b64)) : Prop := forall r, In r data -> snd r = a1.
(** fewer than 2^53 rows *)
Definition countable {X} (data : list X) : Prop := (Z.of_nat (List.length data) < 2 ^ 53)%Z.
(** the aggregate of every bin is a positive finite number or NaN *)
Definition positive64_or_nan (x : b64) : Prop := is_nan x = true \/ posnum x.
(** the bins selected by [q] are those of [t0] divided by the largest of them, which becomes exactly 1; none leaves [0, 1], and order is kept *)
Definition scaled64 (q : nat -> nat -> Prop) (nx ny : nat) (t0 t : nat -> nat -> b64) : Prop :=
  exists m, posnum m
  /\ (exists i j, (i < nx)%nat /\ (j < ny)%nat /\ q i j /\ t0 i j = m /\ is_finite (t i j) = true /\ B2R (t i j) = 1)
  /\ (forall i j, (i < nx)%nat -> (j < ny)%nat -> q i j ->
        is_nan (t i j) = is_nan (t0 i j)
        /\ (is_nan (t0 i j) = false -> is_finite (t i j) = true /\ B2R (t i j) = rnd (B2R (t0 i j) / B2R m) /\ 0 <= B2R (t i j) <= 1))
  /\ (forall i j i' j', (i < nx)%nat -> (j < ny)%nat -> q i j -> (i' < nx)%nat -> (j' < ny)%nat -> q i' j' ->
        is_nan (t0 i j) = false -> is_nan (t0 i' j') = false -> B2R (t0 i j) <= B2R (t0 i' j') -> B2R (t i j) <= B2R (t i' j')).

(* ------------------------------------------------------------------ comparisons see the exact numbers *)
Lemma exact_nan (x : b64) : aisnan (exact x) = aisnan x.
Proof. destruct x as [s|[]| |s m e H]; reflexivity. Qed.
Lemma cmp_exact (x y : b64) : aisnan x = false -> aisnan y = false ->
  Bcompare x y = Some (if xltb (exact x) (exact y) then Lt else if xeqb (exact x) (exact y) then Eq else Gt).
Proof.
  intros Nx Ny. destruct (is_finite x) eqn:Fx, (is_finite y) eqn:Fy.
  - rewrite Bcompare_correct by assumption. rewrite !exact_fin by assumption. cbn [xltb xeqb]. f_equal.
    destruct (Rltb (B2R x) (B2R y)) eqn:L; [apply Rltb_true in L; apply Rcompare_Lt, L|]. apply Rltb_false in L.
    destruct (Reqb (B2R x) (B2R y)) eqn:E; [apply Reqb_true in E; apply Rcompare_Eq, E|]. apply Reqb_false in E. apply Rcompare_Gt. lra.
  - destruct y as [s|s| |s m e H]; try discriminate. rewrite (exact_fin x Fx). destruct x as [s'|s'| |s' m e H]; try discriminate; destruct s; reflexivity.
  - destruct x as [s|s| |s m e H]; try discriminate. rewrite (exact_fin y Fy). destruct y as [s'|s'| |s' m e H]; try discriminate; destruct s; reflexivity.
  - destruct x as [s|s| |s m e H]; try discriminate. destruct y as [s'|s'| |s' m e H]; try discriminate. destruct s, s'; reflexivity.
Qed.
Lemma x_not_both a b : xltb a b = true -> xeqb a b = true -> False.
Proof. destruct a, b; cbn; try discriminate. rewrite Rltb_true, Reqb_true. lra. Qed.
Lemma exact_ltb (x y : b64) : altb x y = altb (exact x) (exact y).
Proof.
  destruct (aisnan x) eqn:Nx; [destruct x; try discriminate; reflexivity|]. destruct (aisnan y) eqn:Ny; [destruct y; try discriminate; destruct x as [s|[]| |s m e H]; reflexivity|].
  transitivity (match Bcompare x y with Some Lt => true | _ => false end); [destruct x as [s|[]| |[] m e H], y as [s'|[]| |[] m' e' H']; reflexivity|].
  rewrite cmp_exact by assumption. change (altb (exact x) (exact y)) with (xltb (exact x) (exact y)). destruct (xltb _ _); [reflexivity|]. destruct (xeqb _ _); reflexivity.
Qed.
Lemma exact_eqb (x y : b64) : aeqb x y = aeqb (exact x) (exact y).
Proof.
  destruct (aisnan x) eqn:Nx; [destruct x; try discriminate; reflexivity|]. destruct (aisnan y) eqn:Ny; [destruct y; try discriminate; destruct x as [s|[]| |s m e H]; reflexivity|].
  transitivity (match Bcompare x y with Some Eq => true | _ => false end); [destruct x as [s|[]| |[] m e H], y as [s'|[]| |[] m' e' H']; reflexivity|].
  rewrite cmp_exact by assumption. change (aeqb (exact x) (exact y)) with (xeqb (exact x) (exact y)). destruct (xltb (exact x) (exact y)) eqn:L; [|destruct (xeqb _ _); reflexivity].
  destruct (xeqb (exact x) (exact y)) eqn:E; [|reflexivity]. destruct (x_not_both _ _ L E).
Qed.
Lemma exact_leb (x y : b64) : aleb x y = aleb (exact x) (exact y).
Proof.
  destruct (aisnan x) eqn:Nx; [destruct x; try discriminate; reflexivity|]. destruct (aisnan y) eqn:Ny; [destruct y; try discriminate; destruct x as [s|[]| |s m e H]; reflexivity|].
  transitivity (match Bcompare x y with Some Lt | Some Eq => true | _ => false end); [destruct x as [s|[]| |[] m e H], y as [s'|[]| |[] m' e' H']; reflexivity|].
  rewrite cmp_exact by assumption. change (aleb (exact x) (exact y)) with (xltb (exact x) (exact y) || xeqb (exact x) (exact y)). destruct (xltb _ _); [reflexivity|]. destruct (xeqb _ _); reflexivity.
Qed.

(* ------------------------------------------------------------------ so bins, members, counts and limits are the exact ones *)
Section Refine.
  Context {TR : Transc b64}.
  Lemma removelast_map {X Y} (f : X -> Y) l : removelast (map f l) = map f (removelast l).
  Proof. induction l as [|x l IH]; [reflexivity|]. destruct l as [|y l]; [reflexivity|]. cbn [map removelast] in *. f_equal. exact IH. Qed.
  Lemma intervals_exact (b : list b64) : intervals (map exact b) = map (fun iv => (exact (fst iv), exact (snd iv))) (intervals b).
  Proof.
    unfold intervals. rewrite removelast_map. replace (tl (map exact b)) with (map exact (tl b)) by (destruct b; reflexivity).
    generalize (removelast b) (tl b). induction l as [|x l IH]; [reflexivity|]. intros [|y m]; [reflexivity|]. cbn [map combine fst snd]. f_equal. apply IH.
  Qed.
  Lemma cut_exact b v : cut (map exact b) (exact v) = cut b v.
  Proof.
    unfold cut. rewrite intervals_exact. generalize 0%nat. induction (intervals b) as [|i r IH]; intro k; [reflexivity|]. cbn [map find_bin].
    unfold in_bin at 1. cbn [fst snd]. rewrite <- exact_ltb, <- exact_leb. change (altb (fst i) v && aleb v (snd i)) with (in_bin v i). destruct (in_bin v i); [reflexivity|apply IH].
  Qed.
  Lemma bins_exact b : bins (map exact b) = bins b.
  Proof. unfold bins. rewrite intervals_exact, map_length. reflexivity. Qed.
  Lemma rows2_exact bx by_ data : rows2 (map exact bx) (map exact by_) (map exact_row3 data) = map (fun r => (fst r, exact (snd r))) (rows2 bx by_ data).
  Proof. unfold rows2. rewrite !map_map. apply map_ext. intros [[x y] z]. unfold cut2, exact_row3. cbn [fst snd]. rewrite !cut_exact. reflexivity. Qed.
  Definition xrows {K} (rows : list (option K * b64)) : list (option K * XR) := map (fun r => (fst r, exact (snd r))) rows.
  Lemma filter_map {X Y} (f : X -> Y) p l : filter p (map f l) = map f (filter (fun x => p (f x)) l).
  Proof. induction l as [|x l IH]; [reflexivity|]. cbn. destruct (p (f x)); cbn; rewrite IH; reflexivity. Qed.
  Lemma members_exact {K} (ke : K -> K -> bool) rows k : members K ke (xrows rows) k = map exact (members K ke rows k).
  Proof. unfold members, xrows. rewrite filter_map, !map_map. reflexivity. Qed.
  Lemma observed_exact {K} (ke : K -> K -> bool) rows k : is_observed K ke (xrows rows) k = is_observed K ke rows k.
  Proof. unfold is_observed, xrows. induction rows as [|r rows IH]; [reflexivity|]. cbn. rewrite IH. reflexivity. Qed.
  Lemma notnan_exact (l : list b64) : filter notnan (map exact l) = map exact (filter notnan l).
  Proof. rewrite filter_map. f_equal. apply filter_ext. intro x. unfold notnan. rewrite exact_nan. reflexivity. Qed.
  Lemma ofnat_exact n : (Z.of_nat n < 2 ^ 53)%Z -> is_finite (ofnat n : b64) = true /\ B2R (ofnat n : b64) = INR n.
  Proof.
    intro L. destruct (bZ_ok (Z.of_nat n) ltac:(lia)) as [F V]. destruct (bZ_ok 1 ltac:(lia)) as [F1 V1].
    change (ofnat n : b64) with (Bdiv mode_NE (bZ (Z.of_nat n)) (bZ 1) : b64).
    assert (Q : rnd (B2R (bZ (Z.of_nat n)) / B2R (bZ 1)) = B2R (bZ (Z.of_nat n))) by (rewrite V1; unfold Rdiv; rewrite Rinv_1, Rmult_1_r; apply rnd_id).
    destruct (div_fin (bZ (Z.of_nat n)) (bZ 1) F ltac:(rewrite V1; lra)) as [[_ [G W]]|[G _]].
    - split; [exact G|]. change (B2R (Bdiv mode_NE (bZ (Z.of_nat n)) (bZ 1))) with (B2R (adiv (bZ (Z.of_nat n)) (bZ 1))). rewrite W, Q, V, INR_IZR_INZ. reflexivity.
    - rewrite Q in G. pose proof (B2R_lt (bZ (Z.of_nat n))). lra.
  Qed.
  Lemma xofnat n : (ofnat n : XR) = Fin (INR n).
  Proof. unfold ofnat. rewrite fin_ofZ, INR_IZR_INZ. reflexivity. Qed.
  Lemma count_exact (l : list b64) : countable l -> exact (count l) = count (map exact l).
  Proof.
    intro C. unfold count. rewrite notnan_exact, map_length.
    assert (L : (List.length (filter notnan l) <= List.length l)%nat) by (clear; induction l as [|x l IH]; [apply Nat.le_refl|cbn; destruct (notnan x); cbn; lia]).
    unfold countable in C. apply Nat2Z.inj_le in L. destruct (ofnat_exact (List.length (filter notnan l)) (Z.le_lt_trans _ _ _ L C)) as [F V]. rewrite xofnat, exact_fin, V by exact F. reflexivity.
  Qed.
  Lemma members_length {K} (ke : K -> K -> bool) (rows : list (option K * b64)) k : (List.length (members K ke rows k) <= List.length rows)%nat.
  Proof. unfold members. rewrite map_length. induction rows as [|r rows IH]; [apply Nat.le_refl|]. cbn. destruct (match fst r with Some q => ke q k | None => false end); cbn; lia. Qed.
  Lemma members_countable {K} (ke : K -> K -> bool) (rows : list (option K * b64)) k : countable rows -> countable (members K ke rows k).
  Proof. unfold countable. intro C. pose proof (members_length ke rows k) as L. apply Nat2Z.inj_le in L. exact (Z.le_lt_trans _ _ _ L C). Qed.
  Lemma within_exact (lim : option b64 * option b64) v : Hist.within (exact_lim lim) (exact v) = Hist.within lim v.
  Proof. unfold Hist.within, exact_lim. destruct lim as [[a|] [b|]]; cbn [fst snd option_map]; rewrite <- ?exact_leb; reflexivity. Qed.
  Definition xtab {K} (t : list (K * b64)) : list (K * XR) := map (fun kv => (fst kv, exact (snd kv))) t.
  (** the table of counts *)
  Lemma counts_exact {K} (ke : K -> K -> bool) keys lim rows : countable rows ->
    agg_runner K ke keys (exact_lim lim) FCount (xrows rows) = xtab (agg_runner K ke keys lim FCount rows).
  Proof.
    intro C. unfold agg_runner, group_agg, xtab, the_fcn. rewrite !map_map. cbn [fst snd].
    rewrite (filter_ext (is_observed K ke (xrows rows)) (is_observed K ke rows)) by (intro; apply observed_exact).
    apply map_ext. intro k. rewrite members_exact, <- count_exact by (apply members_countable; exact C). rewrite within_exact.
    destruct (Hist.within lim _); reflexivity.
  Qed.
  Lemma distinct_exact (l : list b64) : distinct (map exact l) = map exact (distinct l).
  Proof.
    induction l as [|x l IH]; [reflexivity|]. cbn [map distinct].
    replace (existsb (aeqb (exact x)) (map exact l)) with (existsb (aeqb x) l); [destruct (existsb _ l); [exact IH|cbn; rewrite IH; reflexivity]|].
    clear. induction l as [|y l IH]; [reflexivity|]. cbn [existsb map]. rewrite IH, exact_eqb. reflexivity.
  Qed.
  Lemma distinct_same (l : list b64) z : aeqb z z = true -> l <> [] -> (forall x, In x l -> x = z) -> distinct l = [z].
  Proof.
    intros E N A. induction l as [|x l IH]; [contradiction|]. rewrite (A x (or_introl eq_refl)). cbn [distinct]. destruct l as [|y l].
    - reflexivity.
    - rewrite (A y (or_intror (or_introl eq_refl))) at 1. cbn [existsb]. rewrite E. cbn [orb]. apply IH; [discriminate|]. intros w I. apply A. right. exact I.
  Qed.
End Refine.
Lemma one_ok : is_finite (a1 : b64) = true /\ B2R (a1 : b64) = 1. Proof. exact one64. Qed.
Lemma one_eqb : aeqb (a1 : b64) a1 = true.
Proof. rewrite exact_eqb. rewrite exact_fin by apply one_ok. change (Reqb (B2R (a1 : b64)) (B2R (a1 : b64)) = true). apply Reqb_true. reflexivity. Qed.
Lemma one_notnan : notnan (a1 : b64) = true.
Proof. unfold notnan. rewrite <- exact_nan, exact_fin by apply one_ok. reflexivity. Qed.

(** which of the two ways a user asks for plain counts *)
Definition plain (T : Type) (named : bool) : fcn (T := T) := if named then FCount else FDefault.
Lemma default_counts (TR : Transc b64) ex ey data : weight_one data -> forall clim,
  agg_runner k2 k2_eqb (bins2 ex ey) clim FDefault (rows2 ex ey data) = agg_runner k2 k2_eqb (bins2 ex ey) clim FCount (rows2 ex ey data).
Proof.
  intros W clim. destruct data as [|r0 data0] eqn:D; [|rewrite <- D in *; assert (Ne : data <> []) by (rewrite D; discriminate); clear D r0 data0].
  - unfold agg_runner, group_agg, rows2. cbn [map]. rewrite (filter_ext _ (fun _ => false)) by reflexivity.
    assert (E : forall l : list k2, filter (fun _ => false) l = []) by (induction l; auto). rewrite E. reflexivity.
  - unfold agg_runner, the_fcn, group_agg. replace (List.length (distinct (filter notnan (map snd (rows2 ex ey data))))) with 1%nat; [reflexivity|].
    assert (S1 : map snd (rows2 ex ey data) = map (fun _ => a1) data) by (unfold rows2; rewrite map_map; apply map_ext_in; intros r I; cbn [snd]; apply W, I). rewrite S1.
    replace (filter notnan (map (fun _ => (a1 : b64)) data)) with (map (fun _ => (a1 : b64)) data).
    + rewrite distinct_same with (z := a1); [reflexivity|apply one_eqb|destruct data; [contradiction|discriminate]|]. intros x I. apply in_map_iff in I. destruct I as [? [<- _]]. reflexivity.
    + clear. induction data as [|r l IH]; [reflexivity|]. cbn [map filter]. rewrite one_notnan. f_equal. exact IH.
Qed.
Lemma default_counts_x (TR : Transc XR) ex ey data : unweighted data -> forall clim,
  agg_runner k2 k2_eqb (bins2 ex ey) clim FDefault (rows2 ex ey data) = agg_runner k2 k2_eqb (bins2 ex ey) clim FCount (rows2 ex ey data).
Proof.
  intros W clim. destruct data as [|r0 data0] eqn:D; [|rewrite <- D in *; assert (Ne : data <> []) by (rewrite D; discriminate); clear D r0 data0].
  - unfold agg_runner, group_agg, rows2. cbn [map]. rewrite (filter_ext _ (fun _ => false)) by reflexivity.
    assert (E : forall l : list k2, filter (fun _ => false) l = []) by (induction l; auto). rewrite E. reflexivity.
  - unfold agg_runner, the_fcn, group_agg. replace (List.length (distinct (filter notnan (map snd (rows2 ex ey data))))) with 1%nat; [reflexivity|].
    assert (S1 : map snd (rows2 ex ey data) = map (fun _ => Fin 1) data) by (unfold rows2; rewrite map_map; apply map_ext_in; intros r I; cbn [snd]; apply W, I). rewrite S1.
    replace (filter notnan (map (fun _ => Fin 1) data)) with (map (fun _ => Fin 1) data) by (clear; induction data as [|r l IH]; [reflexivity|]; cbn [map filter]; change (notnan (Fin 1)) with true; cbv iota; f_equal; exact IH).
    destruct data as [|r l]; [contradiction|]. clear. induction l as [|r' l IH]; [reflexivity|]. cbn [map] in *. cbn [distinct]. 
    replace (existsb (aeqb (Fin 1)) (Fin 1 :: map (fun _ => Fin 1) l)) with true; [exact IH|]. cbn [existsb]. rewrite fin_eqb. replace (Reqb 1 1) with true by (symmetry; apply Reqb_true; reflexivity). reflexivity.
Qed.
Lemma weight_one_exact data : weight_one data -> unweighted (map exact_row3 data).
Proof. intros W r I. apply in_map_iff in I. destruct I as [q [<- I]]. cbn [exact_row3 snd]. rewrite (W q I), exact_fin by apply one_ok. f_equal. apply one_ok. Qed.
Lemma at_xtab (t : list (k2 * b64)) k : at_key k2 k2_eqb (xtab t) k = exact (at_key k2 k2_eqb t k).
Proof. induction t as [|[q v] t IH]; [reflexivity|]. cbn [xtab map at_key fst snd]. destruct (k2_eqb q k); [reflexivity|exact IH]. Qed.
Lemma no_alim64 (t : list (k2 * b64)) : map (fun kv : k2 * b64 => (fst kv, if Hist.within nolim64 (snd kv) then snd kv else anan)) t = t.
Proof. erewrite map_ext; [apply map_id|]. intros [k v]. reflexivity. Qed.
Lemma count_table (TR : Transc b64) (TX : Transc XR) named clim ex ey data : countable data -> weight_one data ->
  agg_runner k2 k2_eqb (bins2 (map exact ex) (map exact ey)) (exact_lim clim) (plain XR named) (rows2 (map exact ex) (map exact ey) (map exact_row3 data))
  = xtab (agg_runner k2 k2_eqb (bins2 ex ey) clim (plain b64 named) (rows2 ex ey data)).
Proof.
  intros C W. assert (Cr : countable (rows2 ex ey data)) by (unfold countable, rows2 in *; rewrite map_length; exact C).
  assert (K : agg_runner k2 k2_eqb (bins2 (map exact ex) (map exact ey)) (exact_lim clim) FCount (rows2 (map exact ex) (map exact ey) (map exact_row3 data))
    = xtab (agg_runner k2 k2_eqb (bins2 ex ey) clim FCount (rows2 ex ey data))).
  { rewrite rows2_exact. fold (xrows (rows2 ex ey data)). rewrite <- counts_exact by exact Cr. unfold bins2. rewrite !bins_exact. reflexivity. }
  destruct named; [exact K|]. unfold plain. rewrite (default_counts TR) by exact W. rewrite (default_counts_x TX) by (apply weight_one_exact, W). exact K.
Qed.
(** C234 *)
Theorem C234_counts_exact : forall (TR : Transc b64) (lx ly named : bool) ex ey clim data, countable data -> weight_one data ->
  forall i j, exact (agg2_value (agg2 lx ly N2None clim nolim64 ex ey (plain b64 named) data) i j)
  = agg2_value (agg2 lx ly N2None (exact_lim clim) nolim (map exact ex) (map exact ey) (plain XR named) (map exact_row3 data)) i j.
Proof.
  intros TR lx ly named ex ey clim data C W i j. unfold agg2, axis_normalizer2. rewrite no_alim, no_alim64. unfold agg2_value. rewrite (count_table TR _ named clim ex ey data C W), at_xtab. reflexivity.
Qed.

(* ------------------------------------------------------------------ the largest of a list *)
Lemma clean_exact (l : list b64) : clean (map exact l) = map exact (clean l).
Proof. unfold clean. rewrite filter_map. f_equal. apply filter_ext. intro x. rewrite exact_nan. reflexivity. Qed.
Lemma series_max_exact (l : list b64) : series_max (map exact l) = exact (series_max l).
Proof.
  unfold series_max. rewrite clean_exact. destruct (clean l) as [|x r]; [reflexivity|]. cbn [map]. revert x. induction r as [|y r IH]; intro x; [reflexivity|].
  cbn [map fold_left]. rewrite <- exact_ltb. destruct (altb x y); apply IH.
Qed.
Lemma series_max_in (l : list b64) : (forall x, In x l -> aisnan x = false -> is_finite x = true) -> (exists x, In x l /\ aisnan x = false) ->
  In (series_max l) l /\ is_finite (series_max l) = true /\ forall x, In x l -> aisnan x = false -> B2R x <= B2R (series_max l).
Proof.
  intros F [x0 [I0 N0]].
  assert (G : forall r x, is_finite x = true -> (forall y, In y r -> is_finite y = true) ->
    let m := fold_left (fun m y => if altb m y then y else m) r x in In m (x :: r) /\ is_finite m = true /\ forall y, In y (x :: r) -> B2R y <= B2R m).
  { induction r as [|y r IH]; intros x Fx Fr m.
    - unfold m. cbn [fold_left]. split; [left; reflexivity|]. split; [exact Fx|]. intros y [<-|[]]. apply Rle_refl.
    - assert (Fy : is_finite y = true) by (apply Fr; left; reflexivity). assert (E : altb x y = Rltb (B2R x) (B2R y)) by (rewrite exact_ltb, !exact_fin by assumption; reflexivity).
      unfold m. cbn [fold_left]. rewrite E. destruct (Rltb (B2R x) (B2R y)) eqn:L.
      + apply Rltb_true in L. destruct (IH y Fy) as [A [B C]]; [intros z I; apply Fr; right; exact I|]. split; [right; exact A|]. split; [exact B|].
        intros z [<-|I]; [|apply C, I]. specialize (C y (or_introl eq_refl)). lra.
      + apply Rltb_false in L. destruct (IH x Fx) as [A [B C]]; [intros z I; apply Fr; right; exact I|]. split; [destruct A as [A|A]; [left; exact A|right; right; exact A]|]. split; [exact B|].
        intros z [<-|[<-|I]]; [apply C; left; reflexivity| |apply C; right; exact I]. specialize (C x (or_introl eq_refl)). lra. }
  assert (IC : forall x, In x (clean l) <-> In x l /\ aisnan x = false) by (intro x; unfold clean; rewrite filter_In, negb_true_iff; reflexivity).
  unfold series_max. destruct (clean l) as [|x r] eqn:E; [destruct (proj2 (IC x0) (conj I0 N0))|].
  destruct (G r x) as [A [B C]].
  - apply F; apply IC; left; reflexivity.
  - intros y I. apply F; apply IC; right; exact I.
  - split; [apply IC, A|]. split; [exact B|]. intros y I N. apply C, IC. auto.
Qed.

(* ------------------------------------------------------------------ one quotient *)
Lemma nan_div64 (x y : b64) : is_nan x = true -> adiv x y = B754_nan.
Proof. destruct x; try discriminate. intros _. destruct y; reflexivity. Qed.
Lemma zero_div64 (x y : b64) : is_finite x = true -> is_finite y = true -> B2R x = 0 -> B2R y = 0 -> adiv x y = B754_nan.
Proof.
  intros Fx Fy X Y. assert (Z : forall z : b64, is_finite z = true -> B2R z = 0 -> exists s, z = B754_zero s).
  { intros [s|s| |s m e H] F Q; try discriminate; [exists s; reflexivity|]. cbn [B2R] in Q. apply eq_0_F2R in Q. destruct s; discriminate. }
  destruct (Z x Fx X) as [s ->]. destruct (Z y Fy Y) as [s' ->]. reflexivity.
Qed.
Lemma unit_quotient (x y : b64) : is_finite x = true -> is_finite y = true -> 0 <= B2R x <= B2R y -> 0 < B2R y ->
  is_finite (adiv x y) = true /\ B2R (adiv x y) = rnd (B2R x / B2R y) /\ 0 <= B2R (adiv x y) <= 1.
Proof.
  intros Fx Fy [L U] P. assert (Q : 0 <= B2R x / B2R y <= 1).
  { split; [apply Rmult_le_pos; [lra|left; apply Rinv_0_lt_compat; lra]|]. apply (Rmult_le_reg_r (B2R y)); [lra|]. replace (B2R x / B2R y * B2R y) with (B2R x) by (field; lra). lra. }
  assert (V : 0 <= rnd (B2R x / B2R y) <= 1) by (split; [apply rnd_pos; lra|apply rnd_unit; lra]).
  destruct (div_fin x y Fx ltac:(lra)) as [[_ [F E]]|[G _]].
  - rewrite E. auto.
  - rewrite Rabs_pos_eq in G by lra. pose proof one_lt_max. lra.
Qed.
Lemma self_quotient (y : b64) : is_finite y = true -> 0 < B2R y -> is_finite (adiv y y) = true /\ B2R (adiv y y) = 1.
Proof. intros F P. destruct (unit_quotient y y F F ltac:(lra) P) as [A [B _]]. split; [exact A|]. rewrite B. replace (B2R y / B2R y) with 1 by (field; lra). apply rnd_1. Qed.

(* ------------------------------------------------------------------ tables *)
Section Norm.
  Variable qb : k2 -> k2 -> bool.
  Hypothesis qb_refl : forall k, qb k k = true.
  Definition top {T} {A : Arith T} (t : list (k2 * T)) (k : k2) : T := series_max (map snd (filter (fun kv => qb k (fst kv)) t)).
  Lemma at_div (T : Type) (A : Arith T) (g : k2 -> T) (t : list (k2 * T)) k : (forall x, adiv anan x = anan) -> at_key k2 k2_eqb (divide_by k2 g t) k = adiv (at_key k2 k2_eqb t k) (g k).
  Proof.
    intro N. induction t as [|[q v] t IH]; [symmetry; apply N|]. cbn [divide_by map at_key fst snd]. destruct (k2_eqb q k) eqn:E; [|exact IH].
    apply k2_eqb_spec in E. subst q. reflexivity.
  Qed.
  Lemma at_in (t : list (k2 * b64)) k : is_nan (at_key k2 k2_eqb t k) = false -> In (k, at_key k2 k2_eqb t k) t.
  Proof.
    induction t as [|[q v] t IH]; [discriminate|]. cbn [at_key]. destruct (k2_eqb q k) eqn:E; intro N; [|right; apply IH, N].
    apply k2_eqb_spec in E. subst q. left. reflexivity.
  Qed.
  Lemma at_of (t : list (k2 * b64)) k v : NoDup (map fst t) -> In (k, v) t -> at_key k2 k2_eqb t k = v.
  Proof.
    induction t as [|[q w] t IH]; intros ND J; [destruct J|]. cbn [map fst] in ND. apply NoDup_cons_iff in ND. destruct ND as [N ND]. cbn [at_key]. destruct J as [E|I].
    - injection E as -> ->. replace (k2_eqb k k) with true by (symmetry; apply k2_eqb_spec; reflexivity). reflexivity.
    - destruct (k2_eqb q k) eqn:Q; [|apply IH; assumption]. apply k2_eqb_spec in Q. subst q. destruct N. apply in_map_iff. exists (k, v). auto.
  Qed.
  Lemma top_exact (t : list (k2 * b64)) k : top (xtab t) k = exact (top t k).
  Proof. unfold top. rewrite <- series_max_exact. unfold xtab. rewrite filter_map, !map_map. reflexivity. Qed.
  Lemma top_ge (t : list (k2 * b64)) k v : (forall q w, In (q, w) t -> is_nan w = false -> is_finite w = true) -> In (k, v) t -> is_nan v = false ->
    is_finite (top t k) = true /\ B2R v <= B2R (top t k).
  Proof.
    intros F I N. unfold top. destruct (series_max_in (map snd (filter (fun kv : k2 * b64 => qb k (fst kv)) t))) as [_ [A B]].
    - intros x Ix. apply in_map_iff in Ix. destruct Ix as [[q w] [<- Ix]]. apply filter_In in Ix. intro Nx. exact (F q w (proj1 Ix) Nx).
    - exists v. split; [|exact N]. apply in_map_iff. exists (k, v). split; [reflexivity|]. apply filter_In. split; [exact I|apply qb_refl].
    - split; [exact A|]. apply B; [|exact N]. apply in_map_iff. exists (k, v). split; [reflexivity|]. apply filter_In. split; [exact I|apply qb_refl].
  Qed.
  Lemma norm_rounded (t : list (k2 * b64)) k : (forall q w, In (q, w) t -> is_nan w = false -> is_finite w = true /\ 0 <= B2R w) ->
    rounded (at_key k2 k2_eqb (divide_by k2 (top t) t) k) (at_key k2 k2_eqb (divide_by k2 (top (xtab t)) (xtab t)) k).
  Proof.
    intro F. rewrite !at_div by (intro x; reflexivity). rewrite at_xtab, top_exact. destruct (is_nan (at_key k2 k2_eqb t k)) eqn:N.
    - rewrite nan_div64 by exact N. destruct (at_key k2 k2_eqb t k); try discriminate. reflexivity.
    - pose proof (at_in t k N) as I. destruct (F _ _ I N) as [Fv Pv]. destruct (top_ge t k _ (fun q w J M => proj1 (F q w J M)) I N) as [Fm Le].
      rewrite !exact_fin by assumption. destruct (Req_dec (B2R (top t k)) 0) as [Z|Z].
      + assert (Zv : B2R (at_key k2 k2_eqb t k) = 0) by lra. rewrite zero_div64 by assumption. rewrite Zv, Z. rewrite PlasmaMore.div_zero_zero. reflexivity.
      + rewrite fin_div by exact Z. destruct (unit_quotient (at_key k2 k2_eqb t k) (top t k) Fv Fm ltac:(lra) ltac:(lra)) as [A [B _]]. split; assumption.
  Qed.
End Norm.

Definition by_column (k k' : k2) : bool := Nat.eqb (fst k') (fst k).
Definition by_row (k k' : k2) : bool := Nat.eqb (snd k') (snd k).
Definition by_all (_ _ : k2) : bool := true.
Lemma norm_col {T} {A : Arith T} {TR : Transc T} lx ly (bx by_ : list T) t : axis_normalizer2 lx ly N2Col bx by_ t = divide_by k2 (top by_column t) t.
Proof. reflexivity. Qed.
Lemma norm_row {T} {A : Arith T} {TR : Transc T} lx ly (bx by_ : list T) t : axis_normalizer2 lx ly N2Row bx by_ t = divide_by k2 (top by_row t) t.
Proof. reflexivity. Qed.
Lemma norm_all {T} {A : Arith T} {TR : Transc T} lx ly (bx by_ : list T) t : axis_normalizer2 lx ly N2Total bx by_ t = divide_by k2 (top by_all t) t.
Proof. unfold axis_normalizer2, top, values, by_all. rewrite filter_yes. reflexivity. Qed.
Lemma count_entries (TR : Transc b64) clim ex ey named data : countable data -> weight_one data ->
  forall q w, In (q, w) (agg_runner k2 k2_eqb (bins2 ex ey) clim (plain b64 named) (rows2 ex ey data)) -> is_nan w = false -> is_finite w = true /\ 0 <= B2R w.
Proof.
  intros C W q w I N. assert (E : agg_runner k2 k2_eqb (bins2 ex ey) clim (plain b64 named) (rows2 ex ey data) = agg_runner k2 k2_eqb (bins2 ex ey) clim FCount (rows2 ex ey data))
    by (destruct named; [reflexivity|exact (default_counts TR ex ey data W clim)]). rewrite E in I.
  unfold agg_runner, group_agg, the_fcn in I. rewrite map_map in I. cbn [fst snd] in I. apply in_map_iff in I. destruct I as [k [Ek _]].
  assert (Ew : w = if Hist.within clim (count (members k2 k2_eqb (rows2 ex ey data) k)) then count (members k2 k2_eqb (rows2 ex ey data) k) else anan) by congruence.
  destruct (Hist.within clim _); [|rewrite Ew in N; discriminate]. rewrite Ew. unfold count.
  assert (L : (List.length (filter notnan (members k2 k2_eqb (rows2 ex ey data) k)) <= List.length data)%nat).
  { apply Nat.le_trans with (List.length (members k2 k2_eqb (rows2 ex ey data) k)).
    - generalize (members k2 k2_eqb (rows2 ex ey data) k). clear. induction l as [|x l IH]; [apply Nat.le_refl|cbn; destruct (notnan x); cbn; lia].
    - pose proof (members_length k2_eqb (rows2 ex ey data) k) as M. unfold rows2 in M at 2. rewrite map_length in M. exact M. }
  apply Nat2Z.inj_le in L. destruct (ofnat_exact _ (Z.le_lt_trans _ _ _ L C)) as [F V]. split; [exact F|]. rewrite V. apply pos_INR.
Qed.
Theorem C234_normalised_counts : forall (TR : Transc b64) (lx ly named : bool) norm ex ey clim data, countable data -> weight_one data ->
  norm = N2Col \/ norm = N2Row \/ norm = N2Total ->
  forall i j, rounded (agg2_value (agg2 lx ly norm clim nolim64 ex ey (plain b64 named) data) i j)
    (agg2_value (agg2 lx ly norm (exact_lim clim) nolim (map exact ex) (map exact ey) (plain XR named) (map exact_row3 data)) i j).
Proof.
  intros TR lx ly named norm ex ey clim data C W Hn i j. unfold agg2. rewrite no_alim, no_alim64. rewrite (count_table TR _ named clim ex ey data C W).
  pose proof (count_entries TR clim ex ey named data C W) as F. set (t := agg_runner _ _ _ _ _ _) in *. clearbody t. unfold agg2_value.
  destruct Hn as [->|[->| ->]].
  - rewrite !norm_col. apply norm_rounded; [|exact F]. intro k. apply Nat.eqb_refl.
  - rewrite !norm_row. apply norm_rounded; [|exact F]. intro k. apply Nat.eqb_refl.
  - rewrite !norm_all. apply norm_rounded; [|exact F]. intro k. reflexivity.
Qed.

(* ------------------------------------------------------------------ any positive aggregate *)
Lemma nbin64 (b : list b64) : List.length (intervals b) = (List.length b - 1)%nat.
Proof.
  unfold intervals. rewrite combine_length. assert (L : List.length (removelast b) = (List.length b - 1)%nat).
  { induction b as [|x b IH]; [reflexivity|]. destruct b as [|y b]; [reflexivity|]. cbn [removelast] in *. cbn [List.length] in *. lia. }
  rewrite L. replace (List.length (tl b)) with (List.length b - 1)%nat by (destruct b; cbn; lia). lia.
Qed.
Lemma scaled_any (TR : Transc b64) lx ly norm qb ex ey clim f data :
  (forall t : list (k2 * b64), axis_normalizer2 lx ly norm ex ey t = divide_by k2 (top qb t) t) -> (forall k, qb k k = true) -> (forall a b c, qb a b = true -> qb a c = qb b c) ->
  let nx := (List.length ex - 1)%nat in let ny := (List.length ey - 1)%nat in
  let t0 := agg2_value (agg2 lx ly N2None clim nolim64 ex ey f data) in
  let t := agg2_value (agg2 lx ly norm clim nolim64 ex ey f data) in
  (forall i j, (i < nx)%nat -> (j < ny)%nat -> positive64_or_nan (t0 i j)) ->
  forall k0, (exists i j, (i < nx)%nat /\ (j < ny)%nat /\ qb k0 (i, j) = true /\ is_nan (t0 i j) = false) ->
  scaled64 (fun i j => qb k0 (i, j) = true) nx ny t0 t.
Proof.
  intros Norm Rf Eqv nx ny t0 t Pos k0 [i1 [j1 [L1 [L2 [Q1 N1]]]]].
  unfold t, t0, agg2, agg2_value in *. clear t t0. rewrite no_alim64 in Pos, N1. rewrite !no_alim64. rewrite Norm. unfold axis_normalizer2 in *.
  set (tb := agg_runner k2 k2_eqb _ _ _ _) in *.
  assert (KS : map fst tb = filter (is_observed k2 k2_eqb (rows2 ex ey data)) (bins2 ex ey)).
  { unfold tb, agg_runner, group_agg. rewrite !map_map. cbn [fst]. apply map_id. }
  assert (ND : NoDup (map fst tb)) by (rewrite KS; apply NoDup_filter; apply NoDup_prod; apply seq_NoDup).
  assert (Rg : forall i j v, In ((i, j), v) tb -> (i < nx)%nat /\ (j < ny)%nat).
  { intros i j v I. assert (J : In (i, j) (map fst tb)) by (apply in_map_iff; exists ((i, j), v); auto). rewrite KS in J. apply filter_In in J. destruct J as [J _].
    unfold bins2, bins in J. apply in_prod_iff in J. rewrite !in_seq, !nbin64 in J. unfold nx, ny. lia. }
  clearbody tb. clear KS.
  assert (Pe : forall k v, In (k, v) tb -> is_nan v = false -> posnum v).
  { intros [i j] v I N. destruct (Rg i j v I) as [Li Lj]. specialize (Pos i j Li Lj). rewrite (at_of tb (i, j) v ND I) in Pos. destruct Pos as [P|P]; [congruence|exact P]. }
  assert (Te : forall k, qb k0 k = true -> top qb tb k = top qb tb k0).
  { intros k Q. unfold top. do 2 f_equal. apply filter_ext. intros [q v]. cbn [fst]. symmetry. apply Eqv. exact Q. }
  destruct (series_max_in (map snd (filter (fun kv : k2 * b64 => qb k0 (fst kv)) tb))) as [A [B Cm]].
  { intros x Ix N. apply in_map_iff in Ix. destruct Ix as [[q w] [<- Ix]]. apply filter_In in Ix. apply (Pe q w); [apply Ix|exact N]. }
  { exists (at_key k2 k2_eqb tb (i1, j1)). split; [|exact N1]. apply in_map_iff. exists ((i1, j1), at_key k2 k2_eqb tb (i1, j1)). split; [reflexivity|].
    apply filter_In. split; [apply at_in, N1|exact Q1]. }
  fold (top qb tb k0) in A, B, Cm. apply in_map_iff in A. destruct A as [[[im jm] vm] [Em Im]]. apply filter_In in Im. destruct Im as [Im Qm]. cbn [fst snd] in *.
  assert (Nm : is_nan (top qb tb k0) = false) by (destruct (top qb tb k0); try discriminate; reflexivity).
  rewrite Em in Im. clear Em vm. pose proof (Pe _ _ Im Nm) as Pm. pose proof (at_of tb _ _ ND Im) as Am.
  assert (Le : forall i j, qb k0 (i, j) = true -> is_nan (at_key k2 k2_eqb tb (i, j)) = false -> B2R (at_key k2 k2_eqb tb (i, j)) <= B2R (top qb tb k0)).
  { intros i j Q N. apply Cm; [|exact N]. apply in_map_iff. exists ((i, j), at_key k2 k2_eqb tb (i, j)). split; [reflexivity|]. apply filter_In. split; [apply at_in, N|exact Q]. }
  assert (W : forall i j, qb k0 (i, j) = true -> at_key k2 k2_eqb (divide_by k2 (top qb tb) tb) (i, j) = adiv (at_key k2 k2_eqb tb (i, j)) (top qb tb k0)).
  { intros i j Q. rewrite at_div by reflexivity. rewrite Te by exact Q. reflexivity. }
  assert (U : forall i j, qb k0 (i, j) = true -> is_nan (at_key k2 k2_eqb tb (i, j)) = false ->
    is_finite (adiv (at_key k2 k2_eqb tb (i, j)) (top qb tb k0)) = true /\ B2R (adiv (at_key k2 k2_eqb tb (i, j)) (top qb tb k0)) = rnd (B2R (at_key k2 k2_eqb tb (i, j)) / B2R (top qb tb k0))
    /\ 0 <= B2R (adiv (at_key k2 k2_eqb tb (i, j)) (top qb tb k0)) <= 1).
  { intros i j Q N. destruct (Pe _ _ (at_in tb _ N) N) as [Fv Pv]. apply unit_quotient; [exact Fv|exact B| |apply Pm]. split; [lra|]. apply Le; assumption. }
  exists (top qb tb k0). split; [exact Pm|]. split; [|split].
  - exists im, jm. destruct (Rg _ _ _ Im). split; [assumption|]. split; [assumption|]. split; [exact Qm|]. split; [exact Am|]. rewrite (W im jm Qm), Am. apply self_quotient; [exact B|apply Pm].
  - intros i j _ _ Q. rewrite (W i j Q). split.
    + destruct (is_nan (at_key k2 k2_eqb tb (i, j))) eqn:N; [rewrite nan_div64 by exact N; reflexivity|]. destruct (U i j Q N) as [F _]. destruct (adiv _ _); try discriminate; reflexivity.
    + intro N. apply U; assumption.
  - intros i j i' j' _ _ Q _ _ Q' N N' Lv. rewrite (W i j Q), (W i' j' Q'). destruct (U i j Q N) as [_ [-> _]]. destruct (U i' j' Q' N') as [_ [-> _]].
    apply rnd_le. apply Rmult_le_compat_r; [left; apply Rinv_0_lt_compat, Pm|exact Lv].
Qed.
Lemma scaled_ext (q q' : nat -> nat -> Prop) nx ny t0 t : (forall i j, q i j <-> q' i j) -> scaled64 q nx ny t0 t -> scaled64 q' nx ny t0 t.
Proof.
  intros E [m [Pm [[i [j [A [B [Cc D]]]]] [F G]]]]. exists m. split; [exact Pm|]. split; [|split].
  - exists i, j. split; [exact A|]. split; [exact B|]. split; [apply E, Cc|exact D].
  - intros i' j' Li Lj Q. apply F; [assumption|assumption|apply E, Q].
  - intros i1 j1 i2 j2 L1 L2 Q L3 L4 Q'. apply G; auto; apply E; assumption.
Qed.
Theorem C234_column_scaled : forall (TR : Transc b64) (lx ly : bool) ex ey clim f data,
  let nx := (List.length ex - 1)%nat in let ny := (List.length ey - 1)%nat in
  let t0 := agg2_value (agg2 lx ly N2None clim nolim64 ex ey f data) in
  (forall i j, (i < nx)%nat -> (j < ny)%nat -> positive64_or_nan (t0 i j)) ->
  forall i0, (i0 < nx)%nat -> (exists j, (j < ny)%nat /\ is_nan (t0 i0 j) = false) ->
  scaled64 (fun i _ => i = i0) nx ny t0 (agg2_value (agg2 lx ly N2Col clim nolim64 ex ey f data)).
Proof.
  intros TR lx ly ex ey clim f data nx ny t0 Pos i0 L0 [j0 [Lj N0]].
  apply scaled_ext with (q := fun i j => by_column (i0, 0%nat) (i, j) = true); [intros i j; apply Nat.eqb_eq|].
  apply (scaled_any TR lx ly N2Col by_column ex ey clim f data); [intro; apply norm_col|intro; apply Nat.eqb_refl| |exact Pos|].
  - intros a b c E. apply Nat.eqb_eq in E. unfold by_column. rewrite E. reflexivity.
  - exists i0, j0. split; [exact L0|]. split; [exact Lj|]. split; [apply Nat.eqb_refl|exact N0].
Qed.
Theorem C234_row_scaled : forall (TR : Transc b64) (lx ly : bool) ex ey clim f data,
  let nx := (List.length ex - 1)%nat in let ny := (List.length ey - 1)%nat in
  let t0 := agg2_value (agg2 lx ly N2None clim nolim64 ex ey f data) in
  (forall i j, (i < nx)%nat -> (j < ny)%nat -> positive64_or_nan (t0 i j)) ->
  forall j0, (j0 < ny)%nat -> (exists i, (i < nx)%nat /\ is_nan (t0 i j0) = false) ->
  scaled64 (fun _ j => j = j0) nx ny t0 (agg2_value (agg2 lx ly N2Row clim nolim64 ex ey f data)).
Proof.
  intros TR lx ly ex ey clim f data nx ny t0 Pos j0 L0 [i0 [Li N0]].
  apply scaled_ext with (q := fun i j => by_row (0%nat, j0) (i, j) = true); [intros i j; apply Nat.eqb_eq|].
  apply (scaled_any TR lx ly N2Row by_row ex ey clim f data); [intro; apply norm_row|intro; apply Nat.eqb_refl| |exact Pos|].
  - intros a b c E. apply Nat.eqb_eq in E. unfold by_row. rewrite E. reflexivity.
  - exists i0, j0. split; [exact Li|]. split; [exact L0|]. split; [apply Nat.eqb_refl|exact N0].
Qed.
Theorem C234_total_scaled : forall (TR : Transc b64) (lx ly : bool) ex ey clim f data,
  let nx := (List.length ex - 1)%nat in let ny := (List.length ey - 1)%nat in
  let t0 := agg2_value (agg2 lx ly N2None clim nolim64 ex ey f data) in
  (forall i j, (i < nx)%nat -> (j < ny)%nat -> positive64_or_nan (t0 i j)) ->
  (exists i j, (i < nx)%nat /\ (j < ny)%nat /\ is_nan (t0 i j) = false) ->
  scaled64 (fun _ _ => True) nx ny t0 (agg2_value (agg2 lx ly N2Total clim nolim64 ex ey f data)).
Proof.
  intros TR lx ly ex ey clim f data nx ny t0 Pos [i0 [j0 [Li [Lj N0]]]].
  apply scaled_ext with (q := fun i j => by_all (0%nat, 0%nat) (i, j) = true); [intros i j; split; auto|].
  apply (scaled_any TR lx ly N2Total by_all ex ey clim f data); [intro; apply norm_all|reflexivity|reflexivity|exact Pos|].
  exists i0, j0. auto.
Qed.
(** Plain counts are such an aggregate. *)
Theorem C234_counts_positive : forall (TR : Transc b64) (lx ly named : bool) ex ey clim data, countable data -> weight_one data ->
  forall i j, positive64_or_nan (agg2_value (agg2 lx ly N2None clim nolim64 ex ey (plain b64 named) data) i j).
Proof.
  intros TR lx ly named ex ey clim data C W i j. unfold agg2, axis_normalizer2, agg2_value. rewrite no_alim64.
  assert (E : agg_runner k2 k2_eqb (bins2 ex ey) clim (plain b64 named) (rows2 ex ey data) = agg_runner k2 k2_eqb (bins2 ex ey) clim FCount (rows2 ex ey data))
    by (destruct named; [reflexivity|exact (default_counts TR ex ey data W clim)]). rewrite E. clear E.
  set (tb := agg_runner _ _ _ _ _ _). destruct (is_nan (at_key k2 k2_eqb tb (i, j))) eqn:N; [left; exact N|]. right.
  pose proof (at_in tb _ N) as I. unfold tb at 2 in I. unfold agg_runner, group_agg, the_fcn in I. rewrite map_map in I. cbn [fst snd] in I. apply in_map_iff in I. destruct I as [k [Ek Ik]].
  assert (Ew : at_key k2 k2_eqb tb (i, j) = if Hist.within clim (count (members k2 k2_eqb (rows2 ex ey data) k)) then count (members k2 k2_eqb (rows2 ex ey data) k) else anan) by congruence.
  destruct (Hist.within clim _); [|rewrite Ew in N; discriminate]. rewrite Ew. apply filter_In in Ik. destruct Ik as [_ Ob]. unfold is_observed in Ob. apply existsb_exists in Ob.
  destruct Ob as [r [Ir Mr]]. assert (Im : In (snd r) (members k2 k2_eqb (rows2 ex ey data) k)) by (unfold members; apply in_map; apply filter_In; auto).
  assert (Nr : notnan (snd r) = true) by (unfold rows2 in Ir; apply in_map_iff in Ir; destruct Ir as [q [<- Iq]]; cbn [snd]; rewrite (W q Iq); apply one_notnan).
  unfold count. assert (P : (1 <= List.length (filter notnan (members k2 k2_eqb (rows2 ex ey data) k)))%nat).
  { assert (J : In (snd r) (filter notnan (members k2 k2_eqb (rows2 ex ey data) k))) by (apply filter_In; auto). destruct (filter notnan _); [destruct J|cbn; lia]. }
  assert (L : (List.length (filter notnan (members k2 k2_eqb (rows2 ex ey data) k)) <= List.length data)%nat).
  { apply Nat.le_trans with (List.length (members k2 k2_eqb (rows2 ex ey data) k)).
    - generalize (members k2 k2_eqb (rows2 ex ey data) k). clear. induction l as [|x l IH]; [apply Nat.le_refl|cbn; destruct (notnan x); cbn; lia].
    - pose proof (members_length k2_eqb (rows2 ex ey data) k) as M. unfold rows2 in M at 2. rewrite map_length in M. exact M. }
  apply Nat2Z.inj_le in L. destruct (ofnat_exact _ (Z.le_lt_trans _ _ _ L C)) as [F V]. split; [exact F|]. rewrite V. apply le_INR in P. cbn [INR] in P. lra.
Qed.
(** a case: two columns with three, one and two rows *)
Example C234_case : forall TR : Transc b64,
  let h : b64 := aofQ 1 2 in let t : b64 := aofQ 3 2 in
  let ex := map aofZ [0; 1; 2]%Z in let ey := map aofZ [0; 1; 2]%Z in
  let data : list (b64 * b64 * b64) := [(h, h, a1); (h, h, a1); (h, t, a1); (t, h, a1); (h, h, a1); (t, h, a1)] in
  countable data /\ weight_one data
  /\ map (fun k => B2SF (agg2_value (agg2 false false N2Col nolim64 nolim64 ex ey FDefault data) (fst k) (snd k))) [(0, 0); (0, 1); (1, 0); (1, 1)]%nat
    = [B2SF (aofZ 1 : b64); B2SF (aofQ 1 3 : b64); B2SF (aofZ 1 : b64); SpecFloat.S754_nan].
Proof.
  intros TR h t ex ey data. split; [reflexivity|]. split; [intros r I; unfold data in I; repeat (destruct I as [<-|I]; [reflexivity|]); destruct I|]. lazy. reflexivity.
Qed.
