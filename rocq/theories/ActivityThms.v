(** C61 (interpolation), C66 (normalisation), C108 (bands of sunspot number). *)
From Coq Require Import Reals Lra List String Bool ZArith Lia.
From Verif Require Import Py PyStr Num Solar SolarThms Activity.
Import ListNotations.
Open Scope list_scope.
Open Scope R_scope.

Lemma Forall2_mono {A B} (P Q : A -> B -> Prop) l l' : (forall a b, P a b -> Q a b) -> Forall2 P l l' -> Forall2 Q l l'.
Proof. intros H F. induction F; constructor; auto. Qed.
(* ================================================================ C61 *)
Definition sorted_times (l : list Z) : Prop := forall i j a b, (i <= j)%nat -> nth_error l i = Some a -> nth_error l j = Some b -> (a <= b)%Z.
Definition measured (src : list (Z * R)) : list (Z * option R) := map (fun p => (fst p, Some (snd p))) src.
Lemma all_some_measured src : all_some (measured src) = Some src.
Proof. induction src as [|[t v] r IH]; [reflexivity|]. cbn. unfold measured in IH. rewrite IH. reflexivity. Qed.
Lemma increasing_tail a l : increasing (a :: l) = true -> increasing l = true /\ forall b, In b l -> (a < b)%Z.
Proof.
  revert a. induction l as [|b l IH]; intros a H; [split; [reflexivity|intros ? []]|]. change (increasing (a :: b :: l)) with (Z.ltb a b && increasing (b :: l)) in H.
  apply andb_true_iff in H. destruct H as [L I]. apply Z.ltb_lt in L. split; [exact I|]. intros c [<-|Hc]; [exact L|]. destruct (IH b I) as [_ K]. specialize (K c Hc). lia.
Qed.
Lemma last_in {A} (l : list A) d : l <> [] -> In (last l d) l.
Proof. induction l as [|a l IH]; intros N; [contradiction|]. destruct l as [|b l]; [left; reflexivity|]. right. apply IH. discriminate. Qed.
Lemma last_nth {A} (l : list A) d : l <> [] -> nth_error l (List.length l - 1) = Some (last l d).
Proof.
  induction l as [|a l IH]; intros N; [contradiction|]. destruct l as [|b l]; [reflexivity|]. replace (List.length (a :: b :: l) - 1)%nat with (S (List.length (b :: l) - 1)) by (cbn; lia).
  cbn [nth_error]. rewrite IH by discriminate. reflexivity.
Qed.
Lemma increasing_last a l d b : increasing (a :: l) = true -> In b (a :: l) -> (b <= last (a :: l) d)%Z.
Proof.
  revert a b. induction l as [|c l IH]; intros a b H I.
  - destruct I as [<-|[]]. cbn. lia.
  - destruct (increasing_tail _ _ H) as [H' K]. change (last (a :: c :: l) d) with (last (c :: l) d). destruct I as [<-|I].
    + specialize (K c (or_introl eq_refl)). specialize (IH c c H' (or_introl eq_refl)). lia.
    + apply (IH c b H' I).
Qed.
(** For times in order - the usual DatetimeIndex - a value is given exactly inside the range of the source, and it is the
    interpolator's; so if the interpolator passes through the points, source values are returned at source times. *)
Theorem C61_never_extrapolates_partial :
  forall (spline : list (Z * R) -> Z -> R) src target res,
  sorted_times target -> interpolate_data spline (measured src) target = Ok res ->
  (exists lo hi, (exists v, In (lo, v) src) /\ (exists v, In (hi, v) src) /\ (forall t v, In (t, v) src -> (lo <= t <= hi)%Z) /\
     Forall2 (fun t r => ((lo <= t <= hi)%Z -> r = Some (spline src t)) /\ (~ (lo <= t <= hi)%Z -> r = None)) target res) /\
  ((forall t v, In (t, v) src -> spline src t = v) -> Forall2 (fun t r => forall v, In (t, v) src -> r = Some v) target res).
Proof.
  intros spline src target res ST H. unfold interpolate_data in H. rewrite all_some_measured in H.
  destruct (negb (increasing (map fst src)) || Nat.ltb (List.length src) 4) eqn:G; [discriminate|]. apply orb_false_iff in G. destruct G as [INC LEN]. apply negb_false_iff in INC.
  destruct target as [|t0 target]; [discriminate|]. destruct src as [|[s0 v0] src]; [discriminate|]. cbv zeta in H. injection H as <-.
  set (full := (s0, v0) :: src) in *. set (s1 := fst (last full (s0, 0))).
  assert (RANGE : forall t v, In (t, v) full -> (s0 <= t <= s1)%Z).
  { intros t v I. assert (I' : In t (map fst full)) by (change t with (fst (t, v)); apply in_map, I). split.
    - cbn [full map fst] in INC, I'. destruct (increasing_tail _ _ INC) as [_ K]. destruct I' as [<-|I']; [lia|specialize (K t I'); lia].
    - unfold s1. replace (fst (last full (s0, 0))) with (last (map fst full) s0); [cbn [full map fst] in INC, I' |- *; apply increasing_last; assumption|].
      clear. generalize full. induction full0 as [|a l IH]; [reflexivity|]. destruct l as [|b l]; [reflexivity|]. exact IH. }
  assert (K : Forall2 (fun t r => ((s0 <= t <= s1)%Z -> r = Some (spline full t)) /\ (~ (s0 <= t <= s1)%Z -> r = None)) (t0 :: target)
    (map (fun t => if (if (s1 <? last (t0 :: target) t0)%Z then fun t => (t <=? s1)%Z else fun _ => true) t && (if (t0 <? s0)%Z then fun t => (s0 <=? t)%Z else fun _ => true) t then Some (spline full t) else None) (t0 :: target))).
  { apply Forall2_map_in. intros t I.
    assert (LO : (t0 <= t)%Z). { apply In_nth_error in I. destruct I as [i Ei]. apply (ST 0%nat i t0 t); [lia|reflexivity|exact Ei]. }
    assert (HI : (t <= last (t0 :: target) t0)%Z).
    { apply In_nth_error in I. destruct I as [i Ei]. apply (ST i (List.length (t0 :: target) - 1)%nat t _); [|exact Ei|apply last_nth; discriminate].
      assert (B : (i < List.length (t0 :: target))%nat) by (apply nth_error_Some; congruence). lia. }
    destruct (Z.ltb_spec s1 (last (t0 :: target) t0)), (Z.ltb_spec t0 s0); cbv beta; destruct (Z.leb_spec t s1); destruct (Z.leb_spec s0 t); cbn [andb]; split; intros Q; try reflexivity; lia. }
  split.
  - exists s0, s1. split; [exists v0; left; reflexivity|]. split; [exists (snd (last full (s0, 0))); unfold s1; rewrite <- surjective_pairing; apply last_in; discriminate|]. split; [exact RANGE|exact K].
  - intros THRU. revert K. apply Forall2_mono. intros t r [K1 _] v I. rewrite (K1 (RANGE t v I)), (THRU t v I). reflexivity.
Qed.
Print Assumptions C61_never_extrapolates_partial.
(** Times out of order escape the test, which looks at the first and last only: an earlier time beyond the source gets an
    extrapolated value. *)
Theorem C61_unsorted_extrapolates_refuted :
  forall spline : list (Z * R) -> Z -> R, exists src target res, interpolate_data spline (measured src) target = Ok res /\
  exists t v, In t target /\ (forall s w, In (s, w) src -> (s < t)%Z) /\ v = spline src t /\ nth_error res 1 = Some (Some v).
Proof.
  intros spline. exists [(0%Z, 1); (1%Z, 2); (2%Z, 3); (3%Z, 4)], [0; 100; 3]%Z. eexists. split; [reflexivity|]. exists 100%Z. eexists. split; [cbn; auto|]. split; [|split; [reflexivity|reflexivity]].
  intros s w H. cbn in H. repeat (destruct H as [H|H]; [injection H as <- _; lia|]). contradiction.
Qed.
Print Assumptions C61_unsorted_extrapolates_refuted.
(** Missing values in the source are refused. *)
Theorem C61_missing_source_rejected :
  forall spline source target t, In (t, None) source -> interpolate_data spline source target = Err NotImplementedError.
Proof.
  intros spline source target t I. unfold interpolate_data. assert (E : all_some source = None); [|rewrite E; reflexivity].
  induction source as [|[u o] source IH]; [contradiction|]. cbn. destruct o as [v|]; [|reflexivity]. destruct I as [I|I]; [discriminate|]. rewrite (IH I). reflexivity.
Qed.
Print Assumptions C61_missing_source_rejected.
Example C61_ex : sorted_times [-5; 0; 2; 9]%Z /\ exists res, interpolate_data (fun _ _ => 0) (measured [(0%Z, 1); (1%Z, 2); (2%Z, 3); (3%Z, 4)]) [-5; 0; 2; 9]%Z = Ok res.
Proof.
  split; [|eexists; reflexivity]. intros i j a b L Ei Ej.
  do 5 (destruct i as [|i]; [cbn in Ei; try discriminate; injection Ei as <-; do 5 (destruct j as [|j]; [cbn in Ej; try discriminate; try (injection Ej as <-; lia); lia|]); destruct j; discriminate|]). destruct i; discriminate.
Qed.

(* ================================================================ C66 *)
Definition cell (o : option R) : XR := match o with Some x => Fin x | None => NaN end.
Definition present (l : list (option R)) : list R := flat_map (fun o => match o with Some x => [x] | None => [] end) l.
Definition is_top (m : R) (l : list R) : Prop := In m l /\ forall x, In x l -> x <= m.
Definition is_bottom (m : R) (l : list R) : Prop := In m l /\ forall x, In x l -> m <= x.
Definition mean (l : list R) : R := Rsum l / INR (List.length l).
Lemma clean_cells l : clean (map cell l) = map Fin (present l).
Proof. unfold clean. induction l as [|[x|] l IH]; [reflexivity| |exact IH]. cbn [map cell filter]. rewrite fin_isnan. cbn [negb present flat_map app map]. rewrite IH. reflexivity. Qed.
Lemma fold_top l a : exists v, fold_left (fun m y => if altb m y then y else m) (map Fin l) (Fin a) = Fin v /\ is_top v (a :: l).
Proof.
  revert a. induction l as [|b l IH]; intros a; cbn [map fold_left]; [exists a; split; [reflexivity|split; [left; reflexivity|intros x [<-|[]]; lra]]|].
  rewrite fin_ltb. destruct (Rltb a b) eqn:E.
  - apply Rltb_true in E. destruct (IH b) as (v & -> & I & M). exists v. split; [reflexivity|]. split; [right; exact I|]. intros x [<-|Hx]; [specialize (M b (or_introl eq_refl)); lra|apply M, Hx].
  - apply Rltb_false in E. destruct (IH a) as (v & -> & I & M). exists v. split; [reflexivity|]. split; [destruct I as [<-|I]; [left; reflexivity|right; right; exact I]|].
    intros x [<-|[<-|Hx]]; [apply M; left; reflexivity|specialize (M a (or_introl eq_refl)); lra|apply M; right; exact Hx].
Qed.
Lemma fold_bottom l a : exists v, fold_left (fun m y => if altb y m then y else m) (map Fin l) (Fin a) = Fin v /\ is_bottom v (a :: l).
Proof.
  revert a. induction l as [|b l IH]; intros a; cbn [map fold_left]; [exists a; split; [reflexivity|split; [left; reflexivity|intros x [<-|[]]; lra]]|].
  rewrite fin_ltb. destruct (Rltb b a) eqn:E.
  - apply Rltb_true in E. destruct (IH b) as (v & -> & I & M). exists v. split; [reflexivity|]. split; [right; exact I|]. intros x [<-|Hx]; [specialize (M b (or_introl eq_refl)); lra|apply M, Hx].
  - apply Rltb_false in E. destruct (IH a) as (v & -> & I & M). exists v. split; [reflexivity|]. split; [destruct I as [<-|I]; [left; reflexivity|right; right; exact I]|].
    intros x [<-|[<-|Hx]]; [apply M; left; reflexivity|specialize (M a (or_introl eq_refl)); lra|apply M; right; exact Hx].
Qed.
Lemma series_max_fin l : present l <> [] -> exists v, series_max (map cell l) = Fin v /\ is_top v (present l).
Proof. intros N. unfold series_max. rewrite clean_cells. destruct (present l) as [|a r]; [contradiction|]. apply fold_top. Qed.
Lemma series_min_fin l : present l <> [] -> exists v, series_min (map cell l) = Fin v /\ is_bottom v (present l).
Proof. intros N. unfold series_min. rewrite clean_cells. destruct (present l) as [|a r]; [contradiction|]. apply fold_bottom. Qed.
Lemma top_unique a b l : is_top a l -> is_top b l -> a = b.
Proof. intros [I1 M1] [I2 M2]. specialize (M1 b I2). specialize (M2 a I1). lra. Qed.
Lemma bottom_unique a b l : is_bottom a l -> is_bottom b l -> a = b.
Proof. intros [I1 M1] [I2 M2]. specialize (M1 b I2). specialize (M2 a I1). lra. Qed.
Lemma present_in l x : In x (present l) <-> In (Some x) l.
Proof. unfold present. rewrite in_flat_map. split; [intros (o & I & H); destruct o as [y|]; [destruct H as [<-|[]]; exact I|destruct H]|intros I; exists (Some x); split; [exact I|left; reflexivity]]. Qed.

(** The samples of one cycle: values or missing. What a sample with value x becomes. *)
Section OneCycle.
  Variable g : list (option R).
  Hypothesis nonempty : present g <> [].
  Theorem C66_max : forall m, is_top m (present g) -> 0 < m ->
    (forall x, In (Some x) g -> exists y, norm1 ByMax (map cell g) (Fin x) = Fin y /\ y = x / m /\ y <= 1 /\ (0 <= x -> 0 <= y)) /\
    (exists x, In (Some x) g /\ norm1 ByMax (map cell g) (Fin x) = Fin 1) /\ norm1 ByMax (map cell g) NaN = NaN.
  Proof.
    intros m M P. destruct (series_max_fin g nonempty) as (v & E & T). rewrite (top_unique v m _ T M) in E. unfold norm1. rewrite E. split; [|split].
    - intros x I. exists (x / m). rewrite fin_div by lra. split; [reflexivity|]. split; [reflexivity|]. destruct M as [_ M]. specialize (M x (proj2 (present_in g x) I)).
      split; [apply (Rmult_le_reg_r m); [exact P|]; unfold Rdiv; rewrite Rmult_assoc, Rinv_l by lra; lra|]. intros X. apply Rmult_le_pos; [exact X|left; apply Rinv_0_lt_compat, P].
    - exists m. split; [apply present_in, M|]. rewrite fin_div by lra. f_equal. field. lra.
    - apply nan_div_l.
  Qed.
  Theorem C66_feature_scale : forall lo hi, is_bottom lo (present g) -> is_top hi (present g) -> lo < hi ->
    (forall x, In (Some x) g -> exists y, norm1 ByFeature (map cell g) (Fin x) = Fin y /\ y = (x - lo) / (hi - lo) /\ 0 <= y <= 1) /\
    (exists x, In (Some x) g /\ norm1 ByFeature (map cell g) (Fin x) = Fin 0) /\ (exists x, In (Some x) g /\ norm1 ByFeature (map cell g) (Fin x) = Fin 1) /\
    norm1 ByFeature (map cell g) NaN = NaN.
  Proof.
    intros lo hi LO HI L. destruct (series_max_fin g nonempty) as (v & E & T). rewrite (top_unique v hi _ T HI) in E.
    destruct (series_min_fin g nonempty) as (w & E2 & T2). rewrite (bottom_unique w lo _ T2 LO) in E2. unfold norm1. rewrite E, E2, !fin_sub. split; [|split; [|split]].
    - intros x I. exists ((x - lo) / (hi - lo)). rewrite fin_sub, fin_div by lra. split; [reflexivity|]. split; [reflexivity|].
      assert (I' := proj2 (present_in g x) I). destruct LO as [_ LO], HI as [_ HI]. specialize (LO x I'). specialize (HI x I'). split.
      + apply Rmult_le_pos; [lra|left; apply Rinv_0_lt_compat; lra].
      + apply (Rmult_le_reg_r (hi - lo)); [lra|]. unfold Rdiv. rewrite Rmult_assoc, Rinv_l by lra. lra.
    - exists lo. split; [apply present_in, LO|]. rewrite fin_sub, fin_div by lra. f_equal. field. lra.
    - exists hi. split; [apply present_in, HI|]. rewrite fin_sub, fin_div by lra. f_equal. field. lra.
    - rewrite nan_sub_l. apply nan_div_l.
  Qed.
End OneCycle.
Print Assumptions C66_max.
Print Assumptions C66_feature_scale.
Lemma Rsum_const (l : list R) c : Rsum (map (fun _ => c) l) = INR (List.length l) * c.
Proof. induction l as [|a l IH]; [cbn; ring|]. cbn [map Rsum List.length]. rewrite IH, S_INR. ring. Qed.
Lemma Rsum_zero_squares (l : list R) m : Rsum (map (fun x => (x - m) * (x - m)) l) = 0 -> forall x, In x l -> x = m.
Proof.
  induction l as [|a l IH]; intros S x I; [contradiction|]. cbn in S. assert (P : 0 <= Rsum (map (fun x => (x - m) * (x - m)) l)).
  { apply Rsum_nonneg. intros y Hy. apply in_map_iff in Hy. destruct Hy as (z & <- & _). apply Rle_0_sqr. }
  assert (Q := Rle_0_sqr (a - m)). unfold Rsqr in Q. destruct I as [->|I]; [|apply IH; [lra|exact I]]. assert (Z : (x - m) * (x - m) = 0) by lra. apply Rmult_integral in Z. lra.
Qed.
(** The z-score of a cycle with at least two different values has mean 0 and (n-1)-normalised variance 1. *)
Theorem C66_zscore :
  forall g : list (option R), (exists x y, In x (present g) /\ In y (present g) /\ x <> y) ->
  exists z, map (fun x => norm1 ByZscore (map cell g) (Fin x)) (present g) = map Fin z /\
    Rsum z = 0 /\ Rsum (map (fun y => y * y) z) = INR (List.length (present g)) - 1 /\ norm1 ByZscore (map cell g) NaN = NaN.
Proof.
  intros g (x & y & Ix & Iy & NE). set (l := present g) in *. set (n := INR (List.length l)). set (m := mean l).
  assert (N2 : (2 <= List.length l)%nat).
  { destruct l as [|a [|b r]]; [contradiction| |cbn; lia]. destruct Ix as [<-|[]], Iy as [<-|[]]. contradiction. }
  assert (NR : 2 <= n) by (apply le_INR in N2; exact N2).
  assert (M : series_mean (map cell g) = Fin m).
  { unfold series_mean. rewrite clean_cells, sum_strict_fin, map_length, fin_ofZ, <- INR_IZR_INZ, fin_div; [reflexivity|]. fold l. fold n. lra. }
  set (ss := Rsum (map (fun x => (x - m) * (x - m)) l)).
  assert (SS : 0 < ss).
  { assert (P : 0 <= ss). { apply Rsum_nonneg. intros z Hz. apply in_map_iff in Hz. destruct Hz as (w & <- & _). apply Rle_0_sqr. }
    destruct P as [P|P]; [exact P|]. exfalso. symmetry in P. pose proof (Rsum_zero_squares l m P) as Z. apply NE. rewrite (Z x Ix), (Z y Iy). reflexivity. }
  assert (SD : series_std (map cell g) = Fin (sqrt (ss / (n - 1)))).
  { unfold series_std. rewrite M, clean_cells, map_map. fold l.
    assert (E : map (fun r => asq (asub (Fin r) (Fin m))) l = map Fin (map (fun x => (x - m) * (x - m)) l)) by (rewrite map_map; apply map_ext; intros r; rewrite fin_sub, fin_sq; reflexivity).
    rewrite E, sum_strict_fin, map_length, fin_ofZ. replace (IZR (Z.of_nat (List.length l) - 1)) with (n - 1) by (rewrite minus_IZR, <- INR_IZR_INZ; reflexivity).
    fold ss. rewrite fin_div by lra. apply fin_sqrt. apply Rmult_le_pos; [lra|left; apply Rinv_0_lt_compat; lra]. }
  set (sd := sqrt (ss / (n - 1))) in *. assert (SP : 0 < sd) by (apply sqrt_lt_R0, Rmult_lt_0_compat; [exact SS|apply Rinv_0_lt_compat; lra]).
  exists (map (fun x => (x - m) / sd) l). split; [|split; [|split]].
  - rewrite map_map. apply map_ext. intros r. unfold norm1. rewrite M, SD, fin_sub, fin_div by lra. reflexivity.
  - replace (Rsum (map (fun x => (x - m) / sd) l)) with (/ sd * (Rsum l - n * m)).
    + unfold m, mean. fold n. field. split; lra.
    + unfold n. rewrite <- (Rsum_const l m). replace (Rsum (map (fun x => (x - m) / sd) l)) with (Rsum (map (fun x => / sd * x + - / sd * m) l)) by (f_equal; apply map_ext; intros; field; lra).
      rewrite (Rsum_map_plus (fun x => / sd * x) (fun _ => - / sd * m)). rewrite (Rsum_map_scal (/ sd) (fun x => x)), (Rsum_map_scal (- / sd) (fun _ => m)), map_id. unfold n; try rewrite Rsum_const; ring.
  - rewrite map_map. replace (Rsum (map (fun x => (x - m) / sd * ((x - m) / sd)) l)) with (/ (sd * sd) * ss).
    + unfold sd. rewrite sqrt_sqrt; [field; lra|]. apply Rmult_le_pos; [lra|left; apply Rinv_0_lt_compat; lra].
    + unfold ss. rewrite <- (Rsum_map_scal (/ (sd * sd))). f_equal. apply map_ext. intros r. field. lra.
  - unfold norm1. rewrite nan_sub_l. apply nan_div_l.
Qed.
Print Assumptions C66_zscore.
(** Whole record: each sample is normalised with exactly the samples of the cycle that contains it; samples outside all
    cycles become missing. *)
Theorem C66_by_own_cycle :
  forall now tbl cs n by_ (data : list (Z * option R)), calculate_intervals now tbl = Ok cs -> consecutive n tbl -> tbl <> [] ->
  Forall2 (fun s r =>
    (forall c, In c cs -> inside (c_all c) (fst s) ->
       exists g, (forall o, In o g <-> exists t, In (t, o) data /\ inside (c_all c) t) /\ r = norm1 by_ (map cell g) (cell (snd s))) /\
    ((forall c, In c cs -> ~ inside (c_all c) (fst s)) -> r = NaN))
  data (run_normalization by_ cs (map (fun s => (fst s, cell (snd s))) data)).
Proof.
  intros now tbl cs n by_ data H C N. unfold run_normalization. rewrite map_map. apply Forall2_map_in. intros s _. cbn [fst snd]. split.
  - intros c I T. destruct (find (fun c => in_ivl (fst s) (c_all c)) cs) as [d|] eqn:F.
    + apply find_some in F. destruct F as [Id Td]. apply in_ivl_inside in Td. rewrite (cycle_unique now tbl cs n H C N d c (fst s) Id I Td T).
      exists (map snd (filter (fun s => in_ivl (fst s) (c_all c)) data)). split.
      * intros o. rewrite in_map_iff. split.
        -- intros ([t o'] & <- & Q). apply filter_In in Q. destruct Q as [Q1 Q2]. exists t. split; [exact Q1|apply in_ivl_inside, Q2].
        -- intros (t & Q1 & Q2). exists (t, o). split; [reflexivity|]. apply filter_In. split; [exact Q1|apply in_ivl_inside, Q2].
      * f_equal. unfold cycle_values. clear. induction data as [|[t o] data IH]; [reflexivity|]. cbn [map filter fst snd]. destruct (in_ivl t (c_all c)); cbn [map snd]; rewrite IH; reflexivity.
    + exfalso. pose proof (find_none _ _ F c I) as Q. cbv beta in Q. apply in_ivl_inside in T. congruence.
  - intros K. destruct (find (fun c => in_ivl (fst s) (c_all c)) cs) as [d|] eqn:F; [|reflexivity]. apply find_some in F. destruct F as [Id Td]. apply in_ivl_inside in Td. exfalso. apply (K d Id Td).
Qed.
Print Assumptions C66_by_own_cycle.
(** A cycle without any sunspots, or without variation, has no normalised values. *)
Theorem C66_degenerate_cycles_partial :
  norm1 ByMax (map cell [Some 0; Some 0]) (Fin 0) = NaN /\ forall a, norm1 ByFeature (map cell [Some a; Some a]) (Fin a) = NaN.
Proof.
  split.
  - unfold norm1. destruct (series_max_fin [Some 0; Some 0]) as (v & -> & [I _]); [discriminate|]. assert (v = 0) by (cbn in I; intuition congruence). subst v.
    change (xdiv (Fin 0) (Fin 0) = NaN). cbn. rewrite (proj2 (Reqb_true 0 0) eq_refl). unfold inf_sign. rewrite (proj2 (Rltb_false 0 0)) by lra. reflexivity.
  - intros a. unfold norm1. destruct (series_max_fin [Some a; Some a]) as (v & -> & [I _]); [discriminate|]. destruct (series_min_fin [Some a; Some a]) as (w & -> & [J _]); [discriminate|].
    assert (v = a) by (cbn in I; intuition congruence). assert (w = a) by (cbn in J; intuition congruence). subst v w. rewrite !fin_sub, Rminus_diag_eq by reflexivity.
    change (xdiv (Fin 0) (Fin 0) = NaN). cbn. rewrite (proj2 (Reqb_true 0 0) eq_refl). unfold inf_sign. rewrite (proj2 (Rltb_false 0 0)) by lra. reflexivity.
Qed.
Print Assumptions C66_degenerate_cycles_partial.

(* ================================================================ C108 *)
(** A value gets band i exactly if it is within dssn of the i-th mid-point 2 i dssn (right end included). *)
Theorem C108_band_is_nearest_midpoint :
  forall d top x i, 0 < d -> (ssn_band d top x = Some i <-> 2 * INR i * d - d < x <= 2 * INR i * d + d /\ (i < ceil_nat (top / (2 * d)))%nat).
Proof.
  intros d top x i D. unfold ssn_band.
  assert (T : forall i, (Rltb (2 * INR i * d - d) x && Rleb x (2 * INR i * d + d)) = true <-> 2 * INR i * d - d < x <= 2 * INR i * d + d) by (intros j; rewrite andb_true_iff, Rltb_true, Rleb_true; tauto).
  split.
  - intros F. apply find_some in F. destruct F as [I E]. apply T in E. apply in_seq in I. split; [exact E|lia].
  - intros [E B]. destruct (find _ _) as [j|] eqn:F.
    + apply find_some in F. destruct F as [I E']. apply T in E'. f_equal. destruct (Nat.lt_trichotomy j i) as [L|[L|L]]; [|exact L|]; exfalso.
      * assert (Q : INR j + 1 <= INR i) by (rewrite <- S_INR; apply le_INR; lia). assert (Q2 : 2 * (INR j + 1) * d <= 2 * INR i * d) by (apply Rmult_le_compat_r; lra). lra.
      * assert (Q : INR i + 1 <= INR j) by (rewrite <- S_INR; apply le_INR; lia). assert (Q2 : 2 * (INR i + 1) * d <= 2 * INR j * d) by (apply Rmult_le_compat_r; lra). lra.
    + exfalso. assert (I : In i (seq 0 (ceil_nat (top / (2 * d))))) by (apply in_seq; lia). pose proof (find_none _ _ F i I) as Q. cbv beta in Q. apply T in E. congruence.
Qed.
Print Assumptions C108_band_is_nearest_midpoint.
Lemma ceil_nat_spec x n : 0 <= x -> INR n < x -> (n < ceil_nat x)%nat.
Proof.
  intros P L. unfold ceil_nat. assert (A := base_Int_part (- x)). destruct A as [A1 A2]. apply Nat2Z.inj_lt. rewrite Z2Nat.id.
  - apply lt_IZR. rewrite opp_IZR, <- INR_IZR_INZ. lra.
  - apply le_IZR. rewrite opp_IZR. lra.
Qed.
Lemma ceil_nat_le x n : INR n >= x -> 0 <= x -> (ceil_nat x <= n)%nat.
Proof.
  intros L P. unfold ceil_nat. destruct (base_Int_part (- x)) as [A1 A2]. apply Nat2Z.inj_le.
  assert (Q : (- Int_part (- x) < Z.of_nat n + 1)%Z) by (apply lt_IZR; rewrite opp_IZR, plus_IZR, <- INR_IZR_INZ; lra).
  destruct (Z.le_gt_cases 0 (- Int_part (- x))); [rewrite Z2Nat.id by assumption; lia|]. replace (Z.to_nat (- Int_part (- x))) with 0%nat by lia. lia.
Qed.
(** Values up to the top get a band, except those more than dssn above the last mid-point. *)
Theorem C108_covered_values_partial :
  forall d top x, 0 < d -> 0 < top -> (- d < x /\ x < top - d) -> exists i, ssn_band d top x = Some i.
Proof.
  intros d top x D T [X1 X2]. set (y := (x + d) / (2 * d)). assert (Y : 0 < y) by (apply Rmult_lt_0_compat; [lra|apply Rinv_0_lt_compat; lra]).
  destruct (base_Int_part (- y)) as [A1 A2]. set (i := Z.to_nat (- Int_part (- y) - 1)).
  assert (NZ : (0 <= - Int_part (- y) - 1)%Z). { assert (0 < - Int_part (- y))%Z; [apply lt_IZR; rewrite opp_IZR; lra|lia]. }
  assert (EI : INR i = - IZR (Int_part (- y)) - 1) by (unfold i; rewrite INR_IZR_INZ, Z2Nat.id by exact NZ; rewrite minus_IZR, opp_IZR; reflexivity).
  assert (B : INR i < y <= INR i + 1) by lra. assert (EX : x = 2 * y * d - d) by (unfold y; field; lra).
  exists i. apply C108_band_is_nearest_midpoint; [exact D|]. split.
  - rewrite EX. assert (2 * INR i * d < 2 * y * d) by (apply Rmult_lt_compat_r; lra). assert (2 * y * d <= 2 * (INR i + 1) * d) by (apply Rmult_le_compat_r; lra). lra.
  - apply ceil_nat_spec; [apply Rmult_le_pos; [lra|left; apply Rinv_0_lt_compat; lra]|]. apply (Rmult_lt_reg_r (2 * d)); [lra|]. unfold Rdiv. rewrite Rmult_assoc, Rinv_l, Rmult_1_r by lra.
    assert (INR i * (2 * d) < y * (2 * d)) by (apply Rmult_lt_compat_r; lra). assert (y * (2 * d) = x + d) by (unfold y; field; lra). lra.
Qed.
Print Assumptions C108_covered_values_partial.
(** The highest sunspot numbers themselves can be in no band. *)
Theorem C108_maximum_in_no_band_refuted :
  exists data l, cut_spec_by_ssn_band "ssn" 2 data (Some data) = Ok l /\ In None l.
Proof.
  exists [11]. eexists. split; [unfold cut_spec_by_ssn_band; cbn [String.eqb Ascii.eqb Bool.eqb andb map fold_left]; reflexivity|]. left.
  destruct (ssn_band 2 11 11) as [i|] eqn:E; [|reflexivity]. exfalso. apply C108_band_is_nearest_midpoint in E; [|lra]. destruct E as [B L].
  assert (C : (ceil_nat (11 / (2 * 2)) <= 3)%nat) by (apply ceil_nat_le; cbn; lra). assert (I : (i <= 2)%nat) by lia. apply le_INR in I. cbn in I. lra.
Qed.
Print Assumptions C108_maximum_in_no_band_refuted.
