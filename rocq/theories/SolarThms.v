(** C62 (cycles tile time), C63 (assignment to intervals), C64 (bands about extrema), C67 (edge and extremum of samples). *)
From Coq Require Import List String Bool ZArith Lia Permutation Sorted.
From Verif Require Import Py PyStr Sort Solar.
Import ListNotations.
Open Scope list_scope.
Open Scope Z_scope.

(** The specification: a right-closed interval contains t. *)
Definition inside (i : ivl) (t : Z) : Prop := i_l i < t <= i_r i.
Definition disjoint (a b : ivl) : Prop := forall t, ~ (inside a t /\ inside b t).

Lemma in_ivl_inside t i : in_ivl t i = true <-> inside i t.
Proof. unfold in_ivl, inside. rewrite andb_true_iff, Z.ltb_lt, Z.leb_le. tauto. Qed.
Lemma mk_interval_ok l r i : mk_interval l r = Ok i <-> exists a b, l = Some a /\ r = Some b /\ a <= b /\ i = mkI a b.
Proof.
  unfold mk_interval. destruct l as [a|], r as [b|]; try (split; [discriminate|intros (? & ? & ? & ? & _); discriminate]).
  destruct (Z.leb_spec a b).
  - split; [intros E; injection E as <-; exists a, b; auto|]. intros (? & ? & E1 & E2 & _ & ->). congruence.
  - split; [discriminate|]. intros (? & ? & E1 & E2 & L & _). injection E1 as <-. injection E2 as <-. lia.
Qed.

(* ================================================================ C62 *)
(** What each row of the table gives: rise from the minimum to the maximum (today if not yet known), fall to the end, cycle
    from minimum to end; the end is the next minimum if there is a next cycle. *)
Definition peak (today : Z) (r : extrow) : Z := match x_max r with Some m => m | None => today end.
Lemma row_spec today tbl r c : row_intervals today tbl r = Ok c ->
  exists t0 t2, x_min r = Some t0 /\ t0 <= peak today r <= t2 /\ c_no c = x_no r /\ c_rise c = mkI t0 (peak today r) /\ c_all c = mkI t0 t2 /\
  c_fall c = (if peak today r =? t2 then None else Some (mkI (peak today r) t2)) /\
  match find (fun r' => x_no r' =? x_no r + 1) tbl with Some r' => x_min r' = Some t2 | None => t2 = (if peak today r <? today then today else peak today r + 6 * 365 * day) end.
Proof.
  unfold row_intervals. fold (peak today r). intros H. apply bind_ok in H. destruct H as (rise & H1 & H).
  apply bind_ok in H. destruct H as (fall & H2 & H). apply bind_ok in H. destruct H as (all & H3 & H). injection H as <-.
  apply mk_interval_ok in H1. destruct H1 as (t0 & t1 & E0 & E1 & L1 & ->). injection E1 as <-.
  apply mk_interval_ok in H2. destruct H2 as (t1' & t2 & E1' & E2 & L2 & ->). injection E1' as <-.
  apply mk_interval_ok in H3. destruct H3 as (t0' & t2' & E0' & E2' & L3 & ->).
  rewrite E0 in E0'. injection E0' as <-. rewrite E2 in E2'. injection E2' as <-.
  exists t0, t2. split; [exact E0|]. split; [lia|]. split; [reflexivity|]. split; [reflexivity|]. split; [reflexivity|]. split; [reflexivity|].
  destruct (find _ tbl); [exact E2|]. injection E2 as <-. reflexivity.
Qed.
(** In every table that is accepted, the rise and the fall of a cycle are adjacent, disjoint, and together are the cycle;
    rise ends and fall starts at the maximum, the cycle starts at the minimum. *)
Theorem C62_rise_and_fall_make_the_cycle :
  forall now tbl out, calculate_intervals now tbl = Ok out ->
  Forall2 (fun r c => c_no c = x_no r /\ x_min r = Some (i_l (c_all c)) /\
    (forall m, x_max r = Some m -> i_r (c_rise c) = m) /\
    (forall t, inside (c_all c) t <-> inside (c_rise c) t \/ exists f, c_fall c = Some f /\ inside f t) /\
    (forall f, c_fall c = Some f -> i_l f = i_r (c_rise c) /\ disjoint (c_rise c) f)) tbl out.
Proof.
  intros now tbl out H. unfold calculate_intervals in H. cbv zeta in H. apply mapM_ok in H. revert H. generalize tbl at 1 as whole. intros whole H.
  induction H as [|r c l l' Hr _ IH]; constructor; [|exact IH]. apply row_spec in Hr.
  destruct Hr as (t0 & t2 & E0 & [L1 L2] & En & Er & Ea & Ef & _). rewrite Er, Ea, Ef. clear Er Ea Ef.
  split; [exact En|]. split; [exact E0|]. split.
  - intros m M. unfold peak. rewrite M. reflexivity.
  - revert L1 L2. generalize (peak (now / day * day) r) as p. intros p L1 L2. unfold inside, disjoint, inside. cbn [i_l i_r]. split.
    + intros t. destruct (Z.eqb_spec p t2) as [E|E].
      * rewrite E. split; [auto|]. intros [Q|(f & Q & _)]; [exact Q|discriminate].
      * split.
        -- intros Q. destruct (Z_le_gt_dec t p); [left; lia|right]. eexists. split; [reflexivity|]. cbn [i_l i_r]. lia.
        -- intros [Q|(f & Q & I)]; [lia|]. injection Q as <-. cbn in I. lia.
    + intros f Q. destruct (p =? t2); [discriminate|]. injection Q as <-. cbn [i_l i_r]. split; [reflexivity|]. intros t. lia.
Qed.
Print Assumptions C62_rise_and_fall_make_the_cycle.
(** Consecutive cycle numbers. *)
Fixpoint consecutive (n : Z) (tbl : list extrow) : Prop :=
  match tbl with [] => True | r :: l => x_no r = n /\ consecutive (n + 1) l end.
Lemma consecutive_app n l r : consecutive n (l ++ r) <-> consecutive n l /\ consecutive (n + Z.of_nat (List.length l)) r.
Proof.
  revert n. induction l as [|a l IH]; intros n; cbn [app consecutive List.length].
  - rewrite Z.add_0_r. tauto.
  - rewrite IH. replace (n + 1 + Z.of_nat (List.length l)) with (n + Z.of_nat (S (List.length l))) by lia. tauto.
Qed.
Lemma consecutive_bounds l : forall n p, consecutive n l -> In p l -> n <= x_no p < n + Z.of_nat (List.length l).
Proof.
  induction l as [|a l IH]; intros n p C I; [contradiction|]. destruct C as [E C]. cbn [List.length]. destruct I as [<-|I]; [lia|].
  specialize (IH _ p C I). lia.
Qed.
Lemma find_at m pre r post : (forall p, In p pre -> x_no p < m) -> x_no r = m -> find (fun r' => x_no r' =? m) (pre ++ r :: post) = Some r.
Proof.
  intros P E. induction pre as [|a pre IH]; cbn.
  - rewrite E, Z.eqb_refl. reflexivity.
  - destruct (Z.eqb_spec (x_no a) m) as [Q|Q]; [exfalso; specialize (P a (or_introl eq_refl)); lia|]. apply IH. intros p Hp. apply P. right. exact Hp.
Qed.
(** [chain a l b]: the intervals l follow each other from a to b without gap. *)
Fixpoint chain (a : Z) (l : list ivl) (b : Z) : Prop :=
  match l with [] => a = b | i :: r => i_l i = a /\ i_l i <= i_r i /\ chain (i_r i) r b end.
Lemma chain_le l : forall a b, chain a l b -> a <= b.
Proof. induction l as [|i l IH]; intros a b; cbn; [lia|]. intros (E & L & C). specialize (IH _ _ C). lia. Qed.
Lemma chain_in l : forall a b i, chain a l b -> In i l -> a <= i_l i /\ i_l i <= i_r i /\ i_r i <= b.
Proof.
  induction l as [|j l IH]; intros a b i; cbn; [tauto|]. intros (E & L & C) [->|I].
  - pose proof (chain_le _ _ _ C). lia.
  - specialize (IH _ _ _ C I). lia.
Qed.
Lemma chain_covers l : forall a b t, chain a l b -> (a < t <= b <-> exists i, In i l /\ inside i t).
Proof.
  induction l as [|j l IH]; intros a b t C.
  - cbn in C. split; [lia|]. intros (i & [] & _).
  - pose proof (chain_le _ _ _ C) as LE. destruct C as (E & L & C). split.
    + intros T. destruct (Z_le_gt_dec t (i_r j)) as [Q|Q].
      * exists j. split; [left; reflexivity|]. unfold inside. lia.
      * assert (T' : i_r j < t <= b) by lia. apply (IH _ _ t C) in T'. destruct T' as (i & I & IN). exists i. split; [right; exact I|exact IN].
    + intros (i & [->|I] & IN).
      * unfold inside in IN. pose proof (chain_le _ _ _ C). lia.
      * destruct (chain_in _ _ _ _ C I) as (A1 & A2 & A3). unfold inside in IN. lia.
Qed.
Lemma chain_sep l : forall a b, chain a l b -> forall i j, (i < j < List.length l)%nat -> i_r (nth i l (mkI 0 0)) <= i_l (nth j l (mkI 0 0)).
Proof.
  induction l as [|x l IH]; intros a b C i j B; [cbn in B; lia|]. destruct C as (E & L & C). destruct j as [|j]; [lia|]. cbn [List.length] in B. destruct i as [|i]; cbn [nth].
  - assert (I : In (nth j l (mkI 0 0)) l) by (apply nth_In; lia). destruct (chain_in _ _ _ _ C I). lia.
  - apply (IH _ _ C). lia.
Qed.
Lemma rows_chain today : forall suf cs pre n, consecutive n (pre ++ suf) -> suf <> [] ->
  Forall2 (fun r c => row_intervals today (pre ++ suf) r = Ok c) suf cs ->
  exists a b, chain a (map c_all cs) b /\ (exists r0 rest, suf = r0 :: rest /\ x_min r0 = Some a).
Proof.
  induction suf as [|r suf IH]; intros cs pre n C N F; [contradiction|]. inversion F as [|? c ? cs' H1 H2]; subst.
  destruct (row_spec _ _ _ _ H1) as (t0 & t2 & E0 & [L1 L2] & En & Er & Ea & Ef & E2).
  destruct suf as [|r2 suf].
  - inversion H2; subst. exists t0, t2. split; [|exists r, []; auto]. cbn. rewrite Ea. cbn. lia.
  - assert (FND : find (fun r' => x_no r' =? x_no r + 1) (pre ++ r :: r2 :: suf) = Some r2).
    { change (pre ++ r :: r2 :: suf) with (pre ++ [r] ++ r2 :: suf). rewrite app_assoc. apply find_at.
      - intros p Hp. rewrite consecutive_app in C. destruct C as [C1 [Q1 _]]. apply in_app_or in Hp. destruct Hp as [Hp|[<-|[]]]; [|lia].
        pose proof (consecutive_bounds _ _ _ C1 Hp). lia.
      - rewrite consecutive_app in C. destruct C as [_ (Q1 & Q2 & _)]. lia. }
    rewrite FND in E2. assert (EQ : pre ++ r :: r2 :: suf = (pre ++ [r]) ++ r2 :: suf) by (rewrite <- app_assoc; reflexivity).
    rewrite EQ in C, H2. destruct (IH cs' (pre ++ [r]) n C ltac:(discriminate) H2) as (a & b & CH & r0 & rest & ER & EM).
    injection ER as <- <-. rewrite E2 in EM. injection EM as <-. exists t0, b. split; [|exists r, (r2 :: suf); auto].
    cbn [map chain]. rewrite Ea. cbn [i_l i_r]. split; [reflexivity|]. split; [lia|exact CH].
Qed.
(** The cycles of a table of consecutively numbered cycles follow each other without gap or overlap: they tile the time from
    the first minimum on. *)
Theorem C62_cycles_tile :
  forall now tbl out n, calculate_intervals now tbl = Ok out -> consecutive n tbl -> tbl <> [] ->
  exists first last, (exists r0 rest, tbl = r0 :: rest /\ x_min r0 = Some first) /\
    (forall t, first < t <= last <-> exists c, In c out /\ inside (c_all c) t) /\
    (forall i j c d, (i < j)%nat -> nth_error out i = Some c -> nth_error out j = Some d -> i_r (c_all c) <= i_l (c_all d) /\
       (j = S i -> i_r (c_all c) = i_l (c_all d))).
Proof.
  intros now tbl out n H C N. unfold calculate_intervals in H. cbv zeta in H. apply mapM_ok in H.
  destruct (rows_chain (now / day * day) tbl out [] n C N H) as (a & b & CH & R). exists a, b. split; [exact R|]. split.
  - intros t. rewrite (chain_covers _ _ _ t CH). split.
    + intros (i & I & IN). apply in_map_iff in I. destruct I as (c & <- & I). exists c. auto.
    + intros (c & I & IN). exists (c_all c). split; [apply in_map, I|exact IN].
  - intros i j c d L Ei Ej. assert (B : (i < j < List.length (map c_all out))%nat).
    { split; [exact L|]. rewrite map_length. apply nth_error_Some. congruence. }
    assert (Gi : nth i (map c_all out) (mkI 0 0) = c_all c) by (apply nth_error_nth; rewrite nth_error_map, Ei; reflexivity).
    assert (Gj : nth j (map c_all out) (mkI 0 0) = c_all d) by (apply nth_error_nth; rewrite nth_error_map, Ej; reflexivity).
    split; [rewrite <- Gi, <- Gj; apply (chain_sep _ _ _ CH _ _ B)|]. intros ->.
    clear Gi Gj B L H R. revert a CH i Ei Ej. clear C N. induction out as [|x out IH]; intros a CH i Ei Ej; [destruct i; discriminate|].
    destruct CH as (E & LL & CH). destruct i as [|i].
    + cbn in Ei, Ej. injection Ei as <-. destruct out as [|y out]; [discriminate|]. injection Ej as <-. destruct CH as (E' & _). symmetry. exact E'.
    + apply (IH _ CH i); assumption.
Qed.
Print Assumptions C62_cycles_tile.
(** With a gap in the numbering the cycle before it runs until today, over all later cycles. *)
Theorem C62_numbering_gap_overlaps_refuted :
  exists now tbl out c d t, calculate_intervals now tbl = Ok out /\ In c out /\ In d out /\ c_no c <> c_no d /\ inside (c_all c) t /\ inside (c_all d) t.
Proof.
  exists (1000 * day), [mkX 1 (Some 0) (Some day); mkX 3 (Some (10 * day)) (Some (20 * day))]. eexists _, _, _, (15 * day). split; [vm_compute; reflexivity|].
  split; [left; reflexivity|]. split; [right; left; reflexivity|]. split; [cbn; lia|]. unfold inside. cbn [i_l i_r c_all]. unfold day. lia.
Qed.
Print Assumptions C62_numbering_gap_overlaps_refuted.
(** The shipped sunspot table is consecutive and accepted whatever the date. *)
Lemma ssn_consecutive : consecutive 1 ssn_extrema.
Proof. cbn. repeat split; lia. Qed.
Theorem C62_shipped_table_accepted : forall now, exists out, calculate_intervals now ssn_extrema = Ok out.
Proof.
  intros now. unfold calculate_intervals. cbv zeta. generalize (now / day * day) as today. intros today.
  change ssn_extrema with (removelast ssn_extrema ++ [xrow 25 2019 12 2030 12]) at 2.
  assert (A : exists out, mapM (row_intervals today ssn_extrema) (removelast ssn_extrema) = Ok out) by (eexists; vm_compute; reflexivity).
  assert (B : exists c, row_intervals today ssn_extrema (xrow 25 2019 12 2030 12) = Ok c).
  { unfold row_intervals. replace (find (fun r' => x_no r' =? x_no (xrow 25 2019 12 2030 12) + 1) ssn_extrema) with (@None extrow) by (vm_compute; reflexivity).
    unfold xrow, on_date. cbn [x_min x_max]. set (t0 := days_from_civil 2019 12 1 * day). set (t1 := days_from_civil 2030 12 1 * day).
    assert (L : t0 <= t1) by (vm_compute; discriminate). assert (D : 0 <= 6 * 365 * day) by (vm_compute; discriminate).
    unfold mk_interval. rewrite (proj2 (Z.leb_le t0 t1) L). cbn [bind]. destruct (Z.ltb_spec t1 today) as [Q|Q].
    - rewrite (proj2 (Z.leb_le t1 today)) by lia. cbn [bind]. rewrite (proj2 (Z.leb_le t0 today)) by lia. cbn [bind]. eauto.
    - rewrite (proj2 (Z.leb_le t1 _)) by lia. cbn [bind]. rewrite (proj2 (Z.leb_le t0 _)) by lia. cbn [bind]. eauto. }
  destruct A as [o A], B as [c B]. exists (o ++ [c]). revert o A. generalize (removelast ssn_extrema) as l. induction l as [|x l IH]; intros o A; cbn [mapM app] in *.
  - injection A as <-. rewrite B. reflexivity.
  - destruct (row_intervals today ssn_extrema x) as [y|] eqn:E; [|discriminate]. cbn [bind] in *. destruct (mapM _ l) as [ys|] eqn:E2; [|discriminate]. cbn [bind] in A. injection A as <-.
    rewrite (IH ys eq_refl). reflexivity.
Qed.
Print Assumptions C62_shipped_table_accepted.

(* ================================================================ C63 *)
Definition proper (i : ivl) : Prop := i_l i <= i_r i.
Definition sep (a b : ivl) : Prop := i_r a <= i_l b.
Lemma left_total a b : left_leb a b = true \/ left_leb b a = true.
Proof. unfold left_leb. rewrite !Z.leb_le. lia. Qed.
Lemma left_trans a b c : left_leb a b = true -> left_leb b c = true -> left_leb a c = true.
Proof. unfold left_leb. rewrite !Z.leb_le. lia. Qed.
Lemma adj_sep l : StronglySorted (leP left_leb) l -> adj_overlap l = false -> StronglySorted sep l.
Proof.
  induction l as [|a l IH]; intros S O; [constructor|]. inversion S as [|? ? S' F]; subst. constructor.
  - apply IH; [exact S'|]. destruct l; [reflexivity|]. cbn [adj_overlap] in O. apply orb_false_iff in O. apply O.
  - destruct l as [|b l]; [constructor|]. cbn [adj_overlap] in O. apply orb_false_iff in O. destruct O as [O _]. apply Z.ltb_ge in O.
    constructor; [exact O|]. inversion S' as [|? ? _ F']; subst. rewrite Forall_forall in *. intros c Hc. specialize (F' c Hc). unfold leP, left_leb in F'. apply Z.leb_le in F'. unfold sep. lia.
Qed.
Lemma sep_unique l : StronglySorted sep l -> forall a b t, In a l -> In b l -> inside a t -> inside b t -> a = b.
Proof.
  induction l as [|x l IH]; intros S a b t Ia Ib Ta Tb; [contradiction|]. inversion S as [|? ? S' F]; subst. rewrite Forall_forall in F.
  destruct Ia as [->|Ia], Ib as [->|Ib].
  - reflexivity.
  - exfalso. specialize (F b Ib). unfold sep, inside in *. lia.
  - exfalso. specialize (F a Ia). unfold sep, inside in *. lia.
  - apply (IH S' a b t); assumption.
Qed.
Lemma nonoverlap_unique bins a b t : is_overlapping bins = false -> In a bins -> In b bins -> inside a t -> inside b t -> a = b.
Proof.
  intros O Ia Ib. unfold is_overlapping in O. apply adj_sep in O; [|apply sort_by_sorted; [apply left_total|apply left_trans]].
  apply (sep_unique _ O a b t); apply sort_by_In; assumption.
Qed.
(** Conversely intervals that do not overlap pairwise are accepted. *)
Definition solid (i : ivl) : Prop := i_l i < i_r i.
Lemma disjoint_sep a b : solid a -> solid b -> disjoint a b -> sep a b \/ sep b a.
Proof.
  unfold solid, disjoint, sep, inside. intros A B D. destruct (Z_le_gt_dec (i_r a) (i_l b)) as [|G]; [auto|]. right.
  destruct (Z_le_gt_dec (i_r b) (i_l a)) as [|G2]; [auto|]. exfalso. apply (D (Z.min (i_r a) (i_r b))). lia.
Qed.
Lemma accepted bins : (forall i, In i bins -> solid i) -> NoDup bins -> (forall a b, In a bins -> In b bins -> a <> b -> disjoint a b) -> is_overlapping bins = false.
Proof.
  intros SO ND DJ. unfold is_overlapping. assert (ND' : NoDup (sort_by left_leb bins)) by (apply sort_by_NoDup, ND).
  assert (S := sort_by_sorted left_leb left_total left_trans bins).
  assert (SO' : forall i, In i (sort_by left_leb bins) -> solid i) by (intros i; rewrite sort_by_In; apply SO).
  assert (DJ' : forall a b, In a (sort_by left_leb bins) -> In b (sort_by left_leb bins) -> a <> b -> disjoint a b).
  { intros a b Ha Hb. rewrite sort_by_In in Ha, Hb. apply DJ; assumption. }
  revert S ND' SO' DJ'. generalize (sort_by left_leb bins) as l. clear. induction l as [|a l IH]; intros S ND SO DJ; [reflexivity|].
  inversion S as [|? ? S' F]; subst. inversion ND as [|? ? NI ND']; subst. destruct l as [|b l]; [reflexivity|]. change (adj_overlap (a :: b :: l)) with ((i_l b <? i_r a) || adj_overlap (b :: l)).
  rewrite IH; [|exact S'|exact ND'|intros i Hi; apply SO; right; exact Hi|intros x y Hx Hy; apply DJ; right; assumption]. rewrite orb_false_r.
  apply Z.ltb_ge. assert (NE : a <> b) by (intros ->; apply NI; left; reflexivity).
  assert (Sa := SO a (or_introl eq_refl)). assert (Sb := SO b (or_intror (or_introl eq_refl))).
  destruct (disjoint_sep a b Sa Sb (DJ a b (or_introl eq_refl) (or_intror (or_introl eq_refl)) NE)) as [Q|Q]; [exact Q|].
  inversion F as [|? ? FL _]; subst. unfold leP, left_leb in FL. apply Z.leb_le in FL. unfold sep, solid in *. lia.
Qed.
Lemma ivl_eqb_eq a b : ivl_eqb a b = true <-> a = b.
Proof. unfold ivl_eqb. rewrite andb_true_iff, !Z.eqb_eq. destruct a, b. cbn. split; [intros [-> ->]; reflexivity|intros E; injection E as -> ->; auto]. Qed.
Lemma is_unique_nodup l : is_unique l = true <-> NoDup l.
Proof.
  induction l as [|a l IH]; cbn; [split; [constructor|reflexivity]|]. rewrite andb_true_iff, IH, negb_true_iff. split.
  - intros [E N]. constructor; [|exact N]. intros I. assert (X : existsb (ivl_eqb a) l = true) by (apply existsb_exists; exists a; split; [exact I|apply ivl_eqb_eq; reflexivity]). congruence.
  - intros N. inversion N as [|? ? NI N']; subst. split; [|exact N']. destruct (existsb (ivl_eqb a) l) eqn:X; [|reflexivity].
    apply existsb_exists in X. destruct X as (b & I & E). apply ivl_eqb_eq in E. subst b. contradiction.
Qed.
(** Which intervals a call of the API selects: of the requested kinds, of the requested cycles. *)
Definition requested (k : kindarg) (s : string) : Prop :=
  match k with
  | KDefault => True
  | KName n => if String.eqb n "Edges" then s = "Rise"%string \/ s = "Fall"%string else s = n
  | KNames l => In s l
  | KBad => False
  end.
Definition selected (cs : list cyc) (k : kindarg) (tk : option (list Z)) (i : ivl) : Prop :=
  exists c, In c cs /\ match tk with None => True | Some ns => In (c_no c) ns end /\
    ((requested k "Rise" /\ i = c_rise c) \/ (requested k "Fall" /\ c_fall c = Some i) \/ (requested k "Cycle" /\ i = c_all c)).

Lemma find_no cs n c : find (fun c => c_no c =? n) cs = Some c -> In c cs /\ c_no c = n.
Proof. intros H. apply find_some in H. destruct H as [I E]. apply Z.eqb_eq in E. auto. Qed.
Lemma select_rows_spec tk cs rows : NoDup (map c_no cs) -> select_rows tk cs = Ok rows ->
  forall c, In c rows <-> In c cs /\ match tk with None => True | Some ns => In (c_no c) ns end.
Proof.
  intros ND H c. unfold select_rows in H. destruct tk as [ns|]; [|injection H as <-; tauto]. apply mapM_ok in H. split.
  - intros I. induction H as [|n c' ns l E F IH]; [contradiction|]. destruct I as [->|I].
    + destruct (find _ cs) as [c0|] eqn:Q; [|discriminate]. injection E as ->. apply find_no in Q. destruct Q as [Q <-]. split; [exact Q|left; reflexivity].
    + destruct (IH I) as [A B]. split; [exact A|right; exact B].
  - intros [I N]. induction H as [|n c' ns l E F IH]; [contradiction|]. destruct N as [->|N]; [|right; apply IH, N]. left.
    destruct (find _ cs) as [c0|] eqn:Q; [|discriminate]. injection E as ->. apply find_no in Q. destruct Q as [Q EQ]. clear - ND I Q EQ.
    induction cs as [|a cs IH]; [contradiction|]. cbn in ND. inversion ND as [|? ? NI ND']; subst. destruct I as [->|I], Q as [->|Q].
    + reflexivity.
    + exfalso. apply NI. rewrite <- EQ. apply in_map, Q.
    + exfalso. apply NI. rewrite EQ. apply in_map, I.
    + apply IH; assumption.
Qed.
Lemma kinds_spec k ks : select_kinds k = Ok ks -> forall s, In s ks <-> (requested k s /\ In s available_kind).
Proof.
  intros H s. destruct k as [|n|l|]; unfold select_kinds in H.
  - injection H as <-. cbn [requested]. tauto.
  - destruct (String.eqb_spec n "Edges") as [->|N].
    + injection H as <-. cbn. intuition congruence.
    + destruct (mem_str n available_kind) eqn:M; [|discriminate]. injection H as <-. apply mem_str_In in M.
      assert (R : requested (KName n) s <-> s = n).
      { unfold requested. rewrite (proj2 (String.eqb_neq n "Edges") N). tauto. }
      rewrite R. cbn. split; [intros [<-|[]]; auto|intros [-> _]; auto].
  - destruct (forallb _ l) eqn:F; [|discriminate]. injection H as <-. rewrite forallb_forall in F. cbn [requested]. split; [|tauto].
    intros I. split; [exact I|]. apply mem_str_In, F, I.
  - discriminate.
Qed.
Lemma stack_spec ks cs i : In i (stack ks cs) <-> exists c k, In c cs /\ In k ks /\ column k c = Some i.
Proof.
  unfold stack. rewrite in_flat_map. split.
  - intros (c & Ic & H). apply in_flat_map in H. destruct H as (k & Ik & H). exists c, k. destruct (column k c) as [j|]; [|destruct H]. destruct H as [<-|[]]. auto.
  - intros (c & k & Ic & Ik & E). exists c. split; [exact Ic|]. apply in_flat_map. exists k. rewrite E. split; [exact Ik|left; reflexivity].
Qed.
Lemma stack_selected cs k tk ks rows i : NoDup (map c_no cs) -> select_kinds k = Ok ks -> select_rows tk cs = Ok rows ->
  In i (stack ks rows) <-> selected cs k tk i.
Proof.
  intros ND HK HR. rewrite stack_spec. unfold selected. split.
  - intros (c & s & Ic & Is & E). exists c. apply (select_rows_spec tk cs rows ND HR) in Ic. destruct Ic as [Ic N]. split; [exact Ic|]. split; [exact N|].
    apply (kinds_spec k ks HK) in Is. destruct Is as [R A]. destruct A as [<-|[<-|[<-|[]]]]; cbn in E.
    + right. right. injection E as <-. auto.
    + right. left. auto.
    + left. injection E as <-. auto.
  - intros (c & Ic & N & D). assert (IR : In c rows) by (apply (select_rows_spec tk cs rows ND HR); auto). exists c.
    destruct D as [[R ->]|[[R E]|[R ->]]]; [exists "Rise"%string|exists "Fall"%string|exists "Cycle"%string]; (split; [exact IR|]; split; [apply (kinds_spec k ks HK); split; [exact R|cbn; auto]|]); [reflexivity|exact E|reflexivity].
Qed.
(** A call that returns gives each time exactly the selected interval that contains it, and none to a time that no selected
    interval contains; it is never ambiguous. *)
Theorem C63_assigned_iff_contained :
  forall cs kind tk epoch res, NoDup (map c_no cs) ->
  cut_spec_by_interval cs kind tk epoch = Ok res ->
  (forall a b t, selected cs kind tk a -> selected cs kind tk b -> inside a t -> inside b t -> a = b) /\
  Forall2 (fun t a => forall i, a = Some i <-> exists x, t = Some x /\ selected cs kind tk i /\ inside i x) epoch res.
Proof.
  intros cs kind tk epoch res ND H. unfold cut_spec_by_interval in H. apply bind_ok in H. destruct H as (ks & HK & H). apply bind_ok in H. destruct H as (rows & HR & H).
  cbv zeta in H. destruct (is_unique _) eqn:U; [|discriminate]. unfold pd_cut in H. destruct (is_overlapping _) eqn:O; [discriminate|]. injection H as <-.
  set (ii := sort_by ivl_leb (stack ks rows)) in *.
  assert (SEL : forall i, In i ii <-> selected cs kind tk i) by (intros i; unfold ii; rewrite sort_by_In; apply stack_selected; assumption).
  assert (UQ : forall a b t, selected cs kind tk a -> selected cs kind tk b -> inside a t -> inside b t -> a = b).
  { intros a b t Ha Hb. apply SEL in Ha. apply SEL in Hb. apply (nonoverlap_unique ii a b t O Ha Hb). }
  split; [exact UQ|]. induction epoch as [|t epoch IH]; cbn; constructor; [|exact IH]. intros i. destruct t as [x|]; cbn.
  - split.
    + intros F. apply find_some in F. destruct F as [I E]. exists x. split; [reflexivity|]. split; [apply SEL, I|apply in_ivl_inside, E].
    + intros (x' & E & S & IN). injection E as <-. destruct (find (in_ivl x) ii) as [j|] eqn:F.
      * apply find_some in F. destruct F as [I E]. f_equal. apply (UQ j i x); [apply SEL, I|exact S|apply in_ivl_inside, E|exact IN].
      * exfalso. apply SEL in S. pose proof (find_none _ _ F i S) as E. cbv beta in E. apply in_ivl_inside in IN. congruence.
  - split; [discriminate|]. intros (x' & E & _). discriminate.
Qed.
Print Assumptions C63_assigned_iff_contained.
(** Kinds that do not exist are rejected. *)
Theorem C63_unknown_kinds_rejected :
  forall cs tk epoch, (forall s, ~ In s ["Rise"; "Fall"; "Cycle"; "Edges"]%string -> cut_spec_by_interval cs (KName s) tk epoch = Err ValueError) /\
  (forall l, (exists s, In s l /\ ~ In s ["Rise"; "Fall"; "Cycle"]%string) -> cut_spec_by_interval cs (KNames l) tk epoch = Err ValueError).
Proof.
  intros cs tk epoch. split.
  - intros s N. unfold cut_spec_by_interval, select_kinds. destruct (String.eqb_spec s "Edges") as [->|E]; [exfalso; apply N; cbn; auto|].
    destruct (mem_str s available_kind) eqn:M; [|reflexivity]. exfalso. apply N. apply mem_str_In in M. cbn in *. tauto.
  - intros l (s & I & N). unfold cut_spec_by_interval, select_kinds. destruct (forallb _ l) eqn:F; [|reflexivity]. exfalso. apply N.
    rewrite forallb_forall in F. specialize (F s I). apply mem_str_In in F. cbn in *. tauto.
Qed.
Print Assumptions C63_unknown_kinds_rejected.

(** For a well-formed table - consecutive cycles, each with a known minimum before its (known or assumed) maximum - every
    time between the first minimum and the end gets exactly one cycle, and exactly one edge. *)
Lemma intervals_numbers now tbl out : calculate_intervals now tbl = Ok out -> map c_no out = map x_no tbl.
Proof.
  intros H. unfold calculate_intervals in H. cbv zeta in H. apply mapM_ok in H. revert H. generalize tbl at 1 as whole. intros whole H.
  induction H as [|r c l l' E _ IH]; [reflexivity|]. apply row_spec in E. destruct E as (t0 & t2 & _ & _ & EN & _). cbn. rewrite EN, IH. reflexivity.
Qed.
Lemma consecutive_nodup tbl : forall n, consecutive n tbl -> NoDup (map x_no tbl).
Proof.
  induction tbl as [|r tbl IH]; intros n C; [constructor|]. destruct C as [E C]. cbn. constructor; [|apply (IH _ C)].
  intros I. apply in_map_iff in I. destruct I as (p & EP & I). pose proof (consecutive_bounds _ _ _ C I). lia.
Qed.
Definition growing (now : Z) (tbl : list extrow) : Prop := forall r, In r tbl -> exists t0, x_min r = Some t0 /\ t0 < peak ((now / day) * day) r.
Definition edges (c : cyc) : list ivl := c_rise c :: match c_fall c with Some f => [f] | None => [] end.
Lemma chain_nodup_disjoint l : forall a b, chain a l b -> (forall i, In i l -> solid i) -> NoDup l /\ (forall x y, In x l -> In y l -> x <> y -> disjoint x y).
Proof.
  induction l as [|i l IH]; intros a b C SO; [split; [constructor|intros ? ? []]|]. destruct C as (E & L & C). destruct (IH _ _ C) as [ND DJ]; [intros j Hj; apply SO; right; exact Hj|].
  assert (SEP : forall j, In j l -> i_r i <= i_l j) by (intros j Hj; apply (chain_in _ _ _ _ C Hj)). split.
  - constructor; [|exact ND]. intros I. specialize (SEP i I). specialize (SO i (or_introl eq_refl)). unfold solid in SO. lia.
  - intros x y [<-|Hx] [<-|Hy] NE; [contradiction| | |apply DJ; assumption]; intros t [A B]; unfold inside in *.
    + specialize (SEP y Hy). lia.
    + specialize (SEP x Hx). lia.
Qed.
Lemma permutation_accepts l l' : Permutation l l' -> (forall i, In i l -> solid i) -> NoDup l -> (forall x y, In x l -> In y l -> x <> y -> disjoint x y) ->
  is_unique (sort_by ivl_leb l') = true /\ is_overlapping (sort_by ivl_leb l') = false.
Proof.
  intros P SO ND DJ. assert (P' : Permutation l (sort_by ivl_leb l')) by (eapply perm_trans; [exact P|apply Permutation_sym, sort_by_perm]).
  assert (IN : forall i, In i (sort_by ivl_leb l') -> In i l) by (intros i; apply Permutation_in, Permutation_sym, P').
  assert (ND' : NoDup (sort_by ivl_leb l')) by (apply (Permutation_NoDup P'), ND). split; [apply is_unique_nodup, ND'|]. apply accepted; auto.
Qed.
Lemma edges_chain cs : forall a b, chain a (map c_all cs) b ->
  (forall c, In c cs -> i_l (c_rise c) = i_l (c_all c) /\ i_l (c_rise c) < i_r (c_rise c) /\ i_r (c_rise c) <= i_r (c_all c) /\
     c_fall c = (if i_r (c_rise c) =? i_r (c_all c) then None else Some (mkI (i_r (c_rise c)) (i_r (c_all c))))) ->
  chain a (flat_map edges cs) b /\ (forall i, In i (flat_map edges cs) -> solid i).
Proof.
  induction cs as [|c cs IH]; intros a b C H; [split; [exact C|intros ? []]|]. destruct C as (E & L & C). destruct (IH _ _ C) as [CH SO]; [intros d Hd; apply H; right; exact Hd|].
  destruct (H c (or_introl eq_refl)) as (H1 & H2 & H3 & H4). cbn [flat_map]. unfold edges. rewrite H4. destruct (Z.eqb_spec (i_r (c_rise c)) (i_r (c_all c))) as [Q|Q]; cbn [app chain i_l i_r].
  - split.
    + split; [lia|]. split; [lia|]. rewrite Q. exact CH.
    + intros i [<-|I]; [exact H2|apply SO, I].
  - split.
    + split; [lia|]. split; [lia|]. split; [reflexivity|]. split; [lia|exact CH].
    + intros i [<-|[<-|I]]; [exact H2|unfold solid; cbn; lia|apply SO, I].
Qed.
Lemma table_facts now tbl out n : calculate_intervals now tbl = Ok out -> consecutive n tbl -> tbl <> [] -> growing now tbl ->
  exists a b, chain a (map c_all out) b /\ (exists r0 rest, tbl = r0 :: rest /\ x_min r0 = Some a) /\
  (forall c, In c out -> i_l (c_rise c) = i_l (c_all c) /\ i_l (c_rise c) < i_r (c_rise c) /\ i_r (c_rise c) <= i_r (c_all c) /\
     c_fall c = (if i_r (c_rise c) =? i_r (c_all c) then None else Some (mkI (i_r (c_rise c)) (i_r (c_all c))))).
Proof.
  intros H C N G. unfold calculate_intervals in H. cbv zeta in H. apply mapM_ok in H.
  destruct (rows_chain (now / day * day) tbl out [] n C N H) as (a & b & CH & R). exists a, b. split; [exact CH|]. split; [exact R|].
  unfold growing in G. clear CH R C N. revert H G. generalize tbl at 1 as whole. intros whole H G c I.
  induction H as [|r d l l' E _ IH]; [contradiction|]. destruct I as [->|I]; [|apply IH; [intros q Hq; apply G; right; exact Hq|exact I]].
  apply row_spec in E. destruct E as (t0 & t2 & E0 & [L1 L2] & EN & ER & EA & EF & _). rewrite ER, EA, EF. cbn [i_l i_r].
  destruct (G r (or_introl eq_refl)) as (t0' & E0' & LT). rewrite E0 in E0'. injection E0' as <-. split; [reflexivity|]. split; [exact LT|]. split; [lia|]. reflexivity.
Qed.
Lemma stack_edges cs : Permutation (flat_map edges cs) (stack ["Fall"; "Rise"]%string cs).
Proof.
  induction cs as [|c cs IH]; [constructor|]. cbn [flat_map stack]. apply Permutation_app; [|exact IH]. unfold edges. cbn. destruct (c_fall c); cbn; [apply perm_swap|apply Permutation_refl].
Qed.
Lemma stack_cycles cs : stack ["Cycle"%string] cs = map c_all cs.
Proof. induction cs as [|c cs IH]; [reflexivity|]. cbn. rewrite <- IH. reflexivity. Qed.
Theorem C63_every_time_has_one_cycle_and_one_edge :
  forall now tbl out n epoch, calculate_intervals now tbl = Ok out -> consecutive n tbl -> tbl <> [] -> growing now tbl ->
  exists cycles edges_ first last,
    cut_spec_by_interval out (KName "Cycle") None epoch = Ok cycles /\
    cut_spec_by_interval out (KName "Edges") None epoch = Ok edges_ /\
    (exists r0 rest, tbl = r0 :: rest /\ x_min r0 = Some first) /\
    Forall2 (fun t a => a <> None <-> exists x, t = Some x /\ first < x <= last) epoch cycles /\
    Forall2 (fun t a => a <> None <-> exists x, t = Some x /\ first < x <= last) epoch edges_.
Proof.
  intros now tbl out n epoch H C N G. destruct (table_facts now tbl out n H C N G) as (a & b & CH & R & F).
  destruct (edges_chain out a b CH F) as [CE SE].
  assert (SA : forall i, In i (map c_all out) -> solid i).
  { intros i I. apply in_map_iff in I. destruct I as (c & <- & I). destruct (F c I) as (F1 & F2 & F3 & _). unfold solid. lia. }
  destruct (chain_nodup_disjoint _ _ _ CH SA) as [NDA DJA]. destruct (chain_nodup_disjoint _ _ _ CE SE) as [NDE DJE].
  destruct (permutation_accepts _ _ (Permutation_refl _) SA NDA DJA) as [UA OA].
  destruct (permutation_accepts _ _ (stack_edges out) SE NDE DJE) as [UE OE].
  assert (ND : NoDup (map c_no out)) by (rewrite (intervals_numbers _ _ _ H); apply (consecutive_nodup _ _ C)).
  assert (COV : forall bins l, chain a l b -> (forall i, In i bins <-> In i l) -> Forall2 (fun t x => x <> None <-> exists y, t = Some y /\ a < y <= b) epoch (map (cut1 bins) epoch)).
  { intros bins l CL EQ. induction epoch as [|t epoch IH]; cbn; constructor; [|exact IH]. destruct t as [x|]; cbn.
    - destruct (find (in_ivl x) bins) as [i|] eqn:FD.
      + split; [|intros _; discriminate]. intros _. exists x. split; [reflexivity|]. apply find_some in FD. destruct FD as [I E].
        apply (chain_covers _ _ _ x CL). exists i. split; [apply EQ, I|apply in_ivl_inside, E].
      + split; [contradiction|]. intros (y & E & B). injection E as <-. apply (chain_covers _ _ _ x CL) in B. destruct B as (i & I & IN).
        apply EQ in I. pose proof (find_none _ _ FD i I) as Q. cbv beta in Q. apply in_ivl_inside in IN. congruence.
    - split; [contradiction|]. intros (y & E & _). discriminate. }
  exists (map (cut1 (sort_by ivl_leb (map c_all out))) epoch), (map (cut1 (sort_by ivl_leb (stack ["Fall"; "Rise"]%string out))) epoch), a, b. split; [|split; [|split; [|split]]].
  - unfold cut_spec_by_interval. cbn [select_kinds select_rows String.eqb Ascii.eqb Bool.eqb mem_str available_kind bind]. change (stack ["Cycle"%string] out) with (stack ["Cycle"%string] out).
    replace (mem_str "Cycle" available_kind) with true by reflexivity. cbn [bind]. rewrite stack_cycles, UA. unfold pd_cut. rewrite OA. reflexivity.
  - unfold cut_spec_by_interval. change (select_kinds (KName "Edges")) with (@Ok (list string) ["Fall"; "Rise"]%string). cbn [bind select_rows]. rewrite UE. unfold pd_cut. rewrite OE. reflexivity.
  - exact R.
  - apply (COV _ (map c_all out) CH). intros i. apply sort_by_In.
  - apply (COV _ (flat_map edges out) CE). intros i. rewrite sort_by_In. split; apply Permutation_in; [apply Permutation_sym|]; apply stack_edges.
Qed.
Print Assumptions C63_every_time_has_one_cycle_and_one_edge.
(** The default call, with all kinds, never returns: a cycle overlaps its own rise. *)
Theorem C63_default_kind_refuted :
  forall now tbl out epoch, calculate_intervals now tbl = Ok out -> NoDup (map x_no tbl) -> tbl <> [] -> growing now tbl ->
  cut_spec_by_interval out KDefault None epoch = Err ValueError.
Proof.
  intros now tbl out epoch H ND N G. destruct (cut_spec_by_interval out KDefault None epoch) as [res|e] eqn:E.
  - exfalso. assert (NDO : NoDup (map c_no out)) by (rewrite (intervals_numbers _ _ _ H); exact ND).
    destruct (C63_assigned_iff_contained out KDefault None epoch res NDO E) as [UQ _].
    destruct tbl as [|r tbl]; [contradiction|]. pose proof H as H'. unfold calculate_intervals in H'. cbv zeta in H'. apply mapM_ok in H'. inversion H' as [|? c ? cs E1 E2]; subst.
    apply row_spec in E1. destruct E1 as (t0 & t2 & E0 & [L1 L2] & EN & ER & EA & EF & _). destruct (G r (or_introl eq_refl)) as (t0' & E0' & LT).
    rewrite E0 in E0'. injection E0' as <-. set (p := peak (now / day * day) r) in *.
    assert (Q : c_all c = c_rise c).
    { apply (UQ _ _ p).
      - exists c. split; [left; reflexivity|]. split; [exact I|]. right. right. split; [exact I|reflexivity].
      - exists c. split; [left; reflexivity|]. split; [exact I|]. left. split; [exact I|reflexivity].
      - rewrite EA. unfold inside. cbn. lia.
      - rewrite ER. unfold inside. cbn. lia. }
    unfold cut_spec_by_interval in E. cbn [select_kinds select_rows bind] in E. cbv zeta in E. destruct (is_unique _) eqn:U; [|discriminate].
    apply is_unique_nodup in U. apply (Permutation_NoDup (sort_by_perm ivl_leb _)) in U. unfold available_kind in U. cbn [stack flat_map column] in U. cbn in U.
    rewrite Q in U. destruct (c_fall c); cbn in U; inversion U as [|? ? NI _]; apply NI; cbn; auto.
  - f_equal. unfold cut_spec_by_interval in E. cbn [select_kinds select_rows bind] in E. cbv zeta in E. destruct (is_unique _); [|congruence].
    unfold pd_cut in E. destruct (is_overlapping _); congruence.
Qed.
Print Assumptions C63_default_kind_refuted.
Example C63_ex : consecutive 1 ssn_extrema /\ growing (days_from_civil 2025 6 1 * day) ssn_extrema.
Proof.
  split; [apply ssn_consecutive|]. intros r I. assert (K : forallb (fun r => match x_min r, x_max r with Some a, Some b => a <? b | _, _ => false end) ssn_extrema = true) by (vm_compute; reflexivity).
  rewrite forallb_forall in K. specialize (K r I). unfold peak. destruct (x_min r) as [a|]; [|discriminate]. destruct (x_max r) as [b|]; [|discriminate]. exists a. split; [reflexivity|apply Z.ltb_lt, K].
Qed.

(* ================================================================ C64 *)
Definition is_extremum (tbl : list extrow) (n : Z) (k : string) (e : Z) : Prop :=
  exists r, In r tbl /\ x_no r = n /\ ((k = "Min"%string /\ x_min r = Some e) \/ (k = "Max"%string /\ x_max r = Some e)).
Definition asked (tk : option (list Z)) (kinds : option (list string)) (n : Z) (k : string) : Prop :=
  match tk with None => True | Some ns => In n ns end /\ match kinds with None => k = "Min"%string \/ k = "Max"%string | Some l => In k l end.
(** The half-widths to the left and right that a width argument means. *)
Definition widths (dt : list Z) (dl dr : Z) : Prop := dt = [dl; dr] \/ (dt = [dl] /\ dr = dl).

Lemma extrema_list_spec tbl n k e : In (n, k, e) (extrema_list tbl) <-> is_extremum tbl n k e.
Proof.
  unfold extrema_list, is_extremum. rewrite in_flat_map. split.
  - intros (r & I & H). exists r. apply in_app_or in H. destruct H as [H|H].
    + destruct (x_min r) as [t|]; [|destruct H]. destruct H as [H|[]]. injection H as <- <- <-. auto.
    + destruct (x_max r) as [t|]; [|destruct H]. destruct H as [H|[]]. injection H as <- <- <-. auto.
  - intros (r & I & <- & H). exists r. split; [exact I|]. apply in_or_app. destruct H as [[-> E]|[-> E]]; rewrite E; [left|right]; left; reflexivity.
Qed.
Lemma bands_spec tbl dt dl dr bands : widths dt dl dr -> calculate_extrema_bands tbl dt = Ok bands ->
  forall b, In b bands <-> exists e, is_extremum tbl (b_no b) (b_kind b) e /\ b_ivl b = mkI (e - dl) (e + dr).
Proof.
  intros W H b. unfold calculate_extrema_bands in H. apply bind_ok in H. destruct H as (w & HW & H).
  assert (EW : w = (dl, dr)) by (destruct W as [->|[-> ->]]; injection HW as <-; reflexivity). subst w. cbn [fst snd] in H.
  apply mapM_ok in H. assert (K : In b bands <-> exists e, In (b_no b, b_kind b, e) (extrema_list tbl) /\ b_ivl b = mkI (e - dl) (e + dr)).
  { induction H as [|[[n k] e] b' l l' E F IH]; [split; [intros []|intros (? & [] & _)]|].
    apply bind_ok in E. destruct E as (i & EI & E). injection E as <-. apply mk_interval_ok in EI. destruct EI as (x & y & EX & EY & _ & ->). injection EX as <-. injection EY as <-. split.
    - intros [<-|I]; [exists e; cbn; auto|]. apply IH in I. destruct I as (e' & I & Q). exists e'. split; [right; exact I|exact Q].
    - intros (e' & [Q|I] & EQ); [|right; apply IH; exists e'; auto]. left. injection Q as Q1 Q2 ->. destruct b as [n' k' i']. cbn in *. subst. reflexivity. }
  rewrite K. split; intros (e & A & B); exists e; (split; [apply extrema_list_spec, A|exact B]).
Qed.
Lemma ivl_dec : forall a b : ivl, {a = b} + {a <> b}.
Proof. decide equality; apply Z.eq_dec. Qed.
Lemma sep_once l i : StronglySorted sep l -> solid i -> (count_occ ivl_dec l i <= 1)%nat.
Proof.
  intros S SO. induction l as [|h l IH]; [cbn; lia|]. inversion S as [|? ? S' F]; subst. specialize (IH S'). cbn. destruct (ivl_dec h i) as [->|N]; [|exact IH].
  assert (C : count_occ ivl_dec l i = 0%nat); [|lia]. apply count_occ_not_In. intros I. rewrite Forall_forall in F. specialize (F i I). unfold sep, solid in *. lia.
Qed.
Lemma band_once (sel : list band) a b i : In a sel -> In b sel -> b_ivl a = i -> b_ivl b = i -> (count_occ ivl_dec (map b_ivl sel) i <= 1)%nat -> a = b.
Proof.
  intros Ia Ib Ea Eb C. induction sel as [|h sel IH]; [contradiction|]. cbn in C. destruct Ia as [->|Ia], Ib as [->|Ib]; [reflexivity| | |].
  - rewrite Ea in C. destruct (ivl_dec i i); [|contradiction]. exfalso. assert (I : In i (map b_ivl sel)) by (rewrite <- Eb; apply in_map, Ib). apply (count_occ_In ivl_dec) in I. lia.
  - rewrite Eb in C. destruct (ivl_dec i i); [|contradiction]. exfalso. assert (I : In i (map b_ivl sel)) by (rewrite <- Ea; apply in_map, Ia). apply (count_occ_In ivl_dec) in I. lia.
  - apply IH; try assumption. destruct (ivl_dec (b_ivl h) i); lia.
Qed.
(** A call that returns labels a time "n-kind" exactly if it lies in the band (half-open on the left) about that extremum. *)
Theorem C64_labelled_iff_within_band :
  forall tbl dt dl dr bands tk kinds epoch res, widths dt dl dr -> calculate_extrema_bands tbl dt = Ok bands ->
  cut_about_extrema_bands "Number" bands tk kinds epoch = Ok res ->
  Forall2 (fun t a => forall n k, snd a = Some (n, k) <->
    exists x e, t = Some x /\ is_extremum tbl n k e /\ asked tk kinds n k /\ e - dl < x <= e + dr) epoch res.
Proof.
  intros tbl dt dl dr bands tk kinds epoch res W HB H. pose proof (bands_spec tbl dt dl dr bands W HB) as BS.
  unfold cut_about_extrema_bands in H. apply bind_ok in H. destruct H as (bs & HT & H). cbv zeta in H.
  set (ks := match kinds with None => ["Min"; "Max"]%string | Some l => l end) in *.
  destruct (negb _) eqn:NK; [discriminate|]. clear NK. set (sel := filter _ bs) in *. apply bind_ok in H. destruct H as (cut & HC & H).
  unfold pd_cut in HC. destruct (is_overlapping _) eqn:O; [discriminate|]. injection HC as <-. cbn [negb String.eqb Ascii.eqb Bool.eqb] in H. cbn in H. injection H as <-.
  assert (SEL : forall b, In b sel <-> In b bands /\ asked tk kinds (b_no b) (b_kind b)).
  { intros b. unfold sel. rewrite filter_In, mem_str_In. assert (T : In b bs <-> In b bands /\ match tk with None => True | Some ns => In (b_no b) ns end).
    { destruct tk as [ns|]; [|injection HT as <-; tauto]. destruct (forallb _ ns); [|discriminate]. injection HT as <-. rewrite in_flat_map. split.
      - intros (n & In_ & F). apply filter_In in F. destruct F as [F E]. apply Z.eqb_eq in E. subst n. auto.
      - intros [I N]. exists (b_no b). split; [exact N|]. apply filter_In. split; [exact I|apply Z.eqb_refl]. }
    rewrite T. unfold asked. assert (KK : In (b_kind b) ks <-> match kinds with None => b_kind b = "Min"%string \/ b_kind b = "Max"%string | Some l => In (b_kind b) l end).
    { unfold ks. destruct kinds; [tauto|]. cbn. intuition congruence. }
    rewrite KK. tauto. }
  assert (ONCE : forall a b i, In a sel -> In b sel -> b_ivl a = i -> b_ivl b = i -> solid i -> a = b).
  { intros a b i Ia Ib Ea Eb SO. apply (band_once sel a b i Ia Ib Ea Eb).
    rewrite (proj1 (Permutation_count_occ ivl_dec (map b_ivl sel) (sort_by left_leb (sort_by ivl_leb (map b_ivl sel))))).
    - apply sep_once; [|exact SO]. apply adj_sep; [apply sort_by_sorted; [apply left_total|apply left_trans]|exact O].
    - apply Permutation_sym. eapply perm_trans; apply sort_by_perm. }
  clear HB HT. rewrite map_map. induction epoch as [|t epoch IH]; cbn; constructor; [|exact IH]. intros n k. cbn [snd]. destruct t as [x|]; cbn [cut1].
  - destruct (find (in_ivl x) _) as [i|] eqn:F.
    + apply find_some in F. destruct F as [I E]. apply in_ivl_inside in E. rewrite sort_by_In in I. apply in_map_iff in I. destruct I as (b & Eb & Ib).
      assert (SO : solid i) by (unfold inside, solid in *; lia).
      destruct (find (fun b => ivl_eqb (b_ivl b) i) sel) as [b'|] eqn:F2.
      * apply find_some in F2. destruct F2 as [Ib' Eb']. apply ivl_eqb_eq in Eb'. assert (b' = b) by (apply (ONCE b' b i); assumption). subst b'. cbn. split.
        -- intros Q. injection Q as <- <-. apply SEL in Ib. destruct Ib as [Ib A]. apply BS in Ib. destruct Ib as (e & X & Q). exists x, e. split; [reflexivity|]. split; [exact X|]. split; [exact A|].
           rewrite Q in Eb. subst i. unfold inside in E. cbn in E. exact E.
        -- intros (x' & e & Q & X & A & B). injection Q as <-. set (b2 := mkB n k (mkI (e - dl) (e + dr))).
           assert (I2 : In b2 sel) by (apply SEL; split; [apply BS; exists e; split; [exact X|reflexivity]|exact A]).
           assert (EQ : i = b_ivl b2).
           { apply (nonoverlap_unique (sort_by ivl_leb (map b_ivl sel)) i (b_ivl b2) x O); [rewrite sort_by_In, <- Eb; apply in_map, Ib|rewrite sort_by_In; apply in_map, I2|exact E|unfold inside; cbn; lia]. }
           assert (b = b2) by (apply (ONCE b b2 i); [exact Ib|exact I2|exact Eb|symmetry; exact EQ|exact SO]). subst b. reflexivity.
      * exfalso. pose proof (find_none _ _ F2 b Ib) as Q. cbv beta in Q. rewrite Eb in Q. rewrite (proj2 (ivl_eqb_eq i i) eq_refl) in Q. discriminate.
    + split; [discriminate|]. intros (x' & e & Q & X & A & B). injection Q as <-. exfalso. set (b2 := mkB n k (mkI (e - dl) (e + dr))).
      assert (I2 : In b2 sel) by (apply SEL; split; [apply BS; exists e; split; [exact X|reflexivity]|exact A]).
      assert (I3 : In (b_ivl b2) (sort_by ivl_leb (map b_ivl sel))) by (rewrite sort_by_In; apply in_map, I2).
      pose proof (find_none _ _ F _ I3) as Q. cbv beta in Q. assert (T : in_ivl x (b_ivl b2) = true) by (apply in_ivl_inside; unfold inside; cbn; lia). congruence.
  - split; [discriminate|]. intros (x & e & Q & _). discriminate.
Qed.
Print Assumptions C64_labelled_iff_within_band.
(** For the shipped sunspot table and the default width the call always returns: no two bands overlap. *)
Theorem C64_shipped_table_default_width :
  exists bands, calculate_extrema_bands ssn_extrema [365 * day] = Ok bands /\
  forall epoch, exists res, cut_about_extrema_bands "Number" bands None None epoch = Ok res.
Proof.
  assert (K : exists bands, calculate_extrema_bands ssn_extrema [365 * day] = Ok bands /\
     forallb (fun k => existsb (fun b => String.eqb (b_kind b) k) bands) ["Min"; "Max"]%string = true /\
     is_overlapping (sort_by ivl_leb (map b_ivl (filter (fun b => mem_str (b_kind b) ["Min"; "Max"]%string) bands))) = false).
  { eexists. split; [vm_compute; reflexivity|]. split; vm_compute; reflexivity. }
  destruct K as (bands & HB & K1 & K2). exists bands. split; [exact HB|]. intros epoch. unfold cut_about_extrema_bands. cbn [bind]. cbv zeta. rewrite K1. cbn [negb].
  unfold pd_cut. rewrite K2. cbn [bind]. change (String.eqb "Number" "Number") with true. cbn [negb]. eauto.
Qed.
Print Assumptions C64_shipped_table_default_width.
(** Bands wide enough to overlap are refused, not resolved: with two and a half years the shipped table raises. *)
Theorem C64_wide_bands_rejected :
  exists bands, calculate_extrema_bands ssn_extrema [912 * day] = Ok bands /\
  forall epoch, cut_about_extrema_bands "Number" bands None None epoch = Err ValueError.
Proof.
  assert (K : exists bands, calculate_extrema_bands ssn_extrema [912 * day] = Ok bands /\
     forallb (fun k => existsb (fun b => String.eqb (b_kind b) k) bands) ["Min"; "Max"]%string = true /\
     is_overlapping (sort_by ivl_leb (map b_ivl (filter (fun b => mem_str (b_kind b) ["Min"; "Max"]%string) bands))) = true).
  { eexists. split; [vm_compute; reflexivity|]. split; vm_compute; reflexivity. }
  destruct K as (bands & HB & K1 & K2). exists bands. split; [exact HB|]. intros epoch. unfold cut_about_extrema_bands. cbn [bind]. cbv zeta. rewrite K1. cbn [negb].
  unfold pd_cut. rewrite K2. reflexivity.
Qed.
Print Assumptions C64_wide_bands_rejected.
(** Extrema whose table is indexed by "cycle", as LISIRDExtrema's is, can never be cut. *)
Theorem C64_lisird_extrema_refuted :
  forall bands tk kinds epoch res, cut_about_extrema_bands "cycle" bands tk kinds epoch <> Ok res.
Proof.
  intros bands tk kinds epoch res H. unfold cut_about_extrema_bands in H. apply bind_ok in H. destruct H as (bs & _ & H). cbv zeta in H.
  destruct (negb _); [discriminate|]. apply bind_ok in H. destruct H as (cut & _ & H). discriminate.
Qed.
Print Assumptions C64_lisird_extrema_refuted.

(* ================================================================ C67 *)
Lemma cycle_unique now tbl cs n : calculate_intervals now tbl = Ok cs -> consecutive n tbl -> tbl <> [] ->
  forall c d t, In c cs -> In d cs -> inside (c_all c) t -> inside (c_all d) t -> c = d.
Proof.
  intros H C N c d t Ic Id Tc Td. destruct (C62_cycles_tile now tbl cs n H C N) as (a & b & _ & _ & SEP).
  apply In_nth_error in Ic. destruct Ic as [i Ei]. apply In_nth_error in Id. destruct Id as [j Ej].
  destruct (Nat.lt_trichotomy i j) as [L|[->|L]]; [|congruence|].
  - destruct (SEP i j c d L Ei Ej) as [Q _]. unfold inside in *. lia.
  - destruct (SEP j i d c L Ej Ei) as [Q _]. unfold inside in *. lia.
Qed.
Lemma cycle_of_spec now tbl cs n : calculate_intervals now tbl = Ok cs -> consecutive n tbl -> tbl <> [] ->
  forall c t, In c cs -> inside (c_all c) t -> cycle_of cs t = Some (c_no c).
Proof.
  intros H C N c t I T. unfold cycle_of. destruct (find _ cs) as [d|] eqn:F.
  - apply find_some in F. destruct F as [Id E]. apply in_ivl_inside in E. rewrite (cycle_unique now tbl cs n H C N d c t Id I E T). reflexivity.
  - exfalso. pose proof (find_none _ _ F c I) as Q. cbv beta in Q. apply in_ivl_inside in T. congruence.
Qed.
Lemma cycle_of_inv cs t k : cycle_of cs t = Some k -> exists c, In c cs /\ c_no c = k /\ inside (c_all c) t.
Proof. unfold cycle_of. destruct (find _ cs) as [c|] eqn:F; [|discriminate]. cbn. intros E. injection E as <-. apply find_some in F. destruct F as [I E]. apply in_ivl_inside in E. eauto. Qed.
Lemma lookup_row_In tbl n r : NoDup (map x_no tbl) -> In r tbl -> x_no r = n -> lookup_row n tbl = Some r.
Proof.
  intros ND I E. unfold lookup_row. induction tbl as [|a tbl IH]; [contradiction|]. cbn in *. inversion ND as [|? ? NI ND']; subst. destruct I as [->|I].
  - rewrite Z.eqb_refl. reflexivity.
  - destruct (Z.eqb_spec (x_no a) (x_no r)) as [Q|Q]; [exfalso; apply NI; rewrite Q; apply in_map, I|]. apply IH; assumption.
Qed.
(** Facts about a cycle of a table in which every maximum is known. *)
Definition maxima_known (tbl : list extrow) : Prop := forall r, In r tbl -> x_max r <> None.
Lemma cycle_row now tbl cs n c : calculate_intervals now tbl = Ok cs -> consecutive n tbl -> In c cs ->
  exists r t0 t2, In r tbl /\ x_no r = c_no c /\ x_min r = Some t0 /\ c_all c = mkI t0 t2 /\ c_rise c = mkI t0 (peak ((now / day) * day) r) /\
    t0 <= peak ((now / day) * day) r <= t2 /\ c_fall c = (if peak ((now / day) * day) r =? t2 then None else Some (mkI (peak ((now / day) * day) r) t2)) /\ lookup_row (c_no c) tbl = Some r.
Proof.
  intros H C I. unfold calculate_intervals in H. cbv zeta in H. apply mapM_ok in H. assert (ND := consecutive_nodup _ _ C).
  assert (K : exists r, In r tbl /\ row_intervals (now / day * day) tbl r = Ok c).
  { revert H. generalize (row_intervals (now / day * day) tbl) as f. intros f H. induction H as [|r d l l' E F IH]; [contradiction|]. destruct C as [_ C]. 
    destruct I as [->|I]; [exists r; split; [left; reflexivity|exact E]|]. clear C. assert (Q : exists r0, In r0 l /\ f r0 = Ok c).
    { clear IH ND. induction F as [|r1 d1 l l' E1 F IH]; [contradiction|]. destruct I as [->|I]; [exists r1; split; [left; reflexivity|exact E1]|]. destruct (IH I) as (r0 & A & B). exists r0. split; [right; exact A|exact B]. }
    destruct Q as (r0 & A & B). exists r0. split; [right; exact A|exact B]. }
  destruct K as (r & Ir & E). destruct (row_spec _ _ _ _ E) as (t0 & t2 & E0 & L & EN & ER & EA & EF & _). exists r, t0, t2.
  split; [exact Ir|]. split; [symmetry; exact EN|]. split; [exact E0|]. split; [exact EA|]. split; [exact ER|]. split; [exact L|]. split; [exact EF|]. apply lookup_row_In; [exact ND|exact Ir|symmetry; exact EN].
Qed.
(** The edge column agrees with the intervals of the extrema object at every sample. *)
Theorem C67_edge_agrees_with_intervals :
  forall now tbl cs n data, calculate_intervals now tbl = Ok cs -> consecutive n tbl -> tbl <> [] -> maxima_known tbl ->
  Forall2 (fun s e => (e = Some "Rise"%string <-> exists c, In c cs /\ inside (c_rise c) (s_t s)) /\
                      (e = Some "Fall"%string <-> exists c f, In c cs /\ c_fall c = Some f /\ inside f (s_t s)) /\
                      (e = None <-> forall c, In c cs -> ~ inside (c_all c) (s_t s))) data (calculate_edge tbl cs data).
Proof.
  intros now tbl cs n data H C N M. unfold calculate_edge. induction data as [|s data IH]; cbn; constructor; [|exact IH]. clear IH.
  assert (RISE : forall c t, In c cs -> inside (c_rise c) t -> inside (c_all c) t).
  { intros c t I T. destruct (cycle_row now tbl cs n c H C I) as (r & t0 & t2 & _ & _ & _ & EA & ER & L & _). rewrite EA. rewrite ER in T. unfold inside in *. cbn in *. lia. }
  assert (FALL : forall c f t, In c cs -> c_fall c = Some f -> inside f t -> inside (c_all c) t /\ ~ inside (c_rise c) t).
  { intros c f t I E T. destruct (cycle_row now tbl cs n c H C I) as (r & t0 & t2 & _ & _ & _ & EA & ER & L & EF & _). rewrite EA, ER. rewrite EF in E.
    destruct (_ =? _); [discriminate|]. injection E as <-. unfold inside in *. cbn in *. lia. }
  destruct (cycle_of cs (s_t s)) as [k|] eqn:CO.
  - apply cycle_of_inv in CO. destruct CO as (c & I & <- & T). destruct (cycle_row now tbl cs n c H C I) as (r & t0 & t2 & Ir & EN & E0 & EA & ER & L & EF & LK).
    unfold edge_of. rewrite LK. destruct (x_max r) as [m|] eqn:EM; [|exfalso; apply (M r Ir EM)]. assert (P : peak (now / day * day) r = m) by (unfold peak; rewrite EM; reflexivity). rewrite P in *. clear P.
    pose proof (cycle_unique now tbl cs n H C N) as UQ. destruct (Z.leb_spec (s_t s) m) as [Q|Q].
    + assert (TR : inside (c_rise c) (s_t s)) by (rewrite ER; rewrite EA in T; unfold inside in *; cbn in *; lia). split; [|split].
      * split; [intros _; eauto|reflexivity].
      * split; [discriminate|]. intros (d & f & Id & Ed & Td). exfalso. destruct (FALL d f _ Id Ed Td) as [A B]. rewrite (UQ d c _ Id I A T) in B. contradiction.
      * split; [discriminate|]. intros K. exfalso. apply (K c I T).
    + assert (TF : exists f, c_fall c = Some f /\ inside f (s_t s)).
      { rewrite EF. rewrite EA in T. unfold inside in T. cbn in T. destruct (Z.eqb_spec m t2) as [->|NE]; [lia|]. eexists. split; [reflexivity|]. unfold inside. cbn. lia. }
      destruct TF as (f & Ef & Tf). split; [|split].
      * split; [discriminate|]. intros (d & Id & Td). exfalso. destruct (FALL c f _ I Ef Tf) as [_ B]. rewrite (UQ d c _ Id I (RISE d _ Id Td) T) in Td. contradiction.
      * split; [intros _; eauto|reflexivity].
      * split; [discriminate|]. intros K. exfalso. apply (K c I T).
  - assert (K : forall c, In c cs -> ~ inside (c_all c) (s_t s)).
    { intros c I T. rewrite (cycle_of_spec now tbl cs n H C N c _ I T) in CO. discriminate. }
    split; [|split].
    + split; [discriminate|]. intros (d & Id & Td). exfalso. apply (K d Id), RISE; assumption.
    + split; [discriminate|]. intros (d & f & Id & Ed & Td). exfalso. apply (K d Id). apply (FALL d f _ Id Ed Td).
    + split; [intros _; exact K|reflexivity].
Qed.
Print Assumptions C67_edge_agrees_with_intervals.
(** A current cycle whose maximum is not known yet is rising according to the intervals, but its samples get no edge. *)
Theorem C67_unknown_maximum_refuted :
  exists now tbl cs s c, calculate_intervals now tbl = Ok cs /\ consecutive 25 tbl /\ In c cs /\ inside (c_rise c) (s_t s) /\ calculate_edge tbl cs [s] = [None].
Proof.
  exists (1000 * day), [mkX 25 (Some 0) None]. eexists _, (mkS day (Some 3)), _. split; [vm_compute; reflexivity|]. split; [cbn; auto|]. split; [left; reflexivity|]. split; [|vm_compute; reflexivity].
  unfold inside. cbn [c_rise i_l i_r s_t]. unfold day. lia.
Qed.
Print Assumptions C67_unknown_maximum_refuted.
Lemma zmax_spec l m : zmax l = Some m -> In (Some m) l /\ forall x, In (Some x) l -> x <= m.
Proof.
  revert m. induction l as [|[a|] l IH]; intros m H; [discriminate| |].
  - cbn in H. destruct (zmax l) as [b|] eqn:E; injection H as <-.
    + destruct (IH b eq_refl) as [I B]. split.
      * destruct (Z.max_spec a b) as [[_ ->]|[_ ->]]; [right; exact I|left; reflexivity].
      * intros x [Q|Q]; [injection Q as ->; lia|specialize (B x Q); lia].
    + split; [left; reflexivity|]. intros x [Q|Q]; [injection Q as ->; lia|]. exfalso. clear IH. induction l as [|[b|] l IHl]; [contradiction| |].
      * cbn in E. destruct (zmax l); discriminate.
      * destruct Q as [Q|Q]; [discriminate|]. apply IHl; assumption.
  - cbn in H. destruct (IH m H) as [I B]. split; [right; exact I|]. intros x [Q|Q]; [discriminate|apply B, Q].
Qed.
Lemma zmax_none l x : zmax l = None -> ~ In (Some x) l.
Proof. induction l as [|[b|] l IH]; intros E; [auto| |]; cbn in E. { destruct (zmax l); discriminate. } intros [Q|Q]; [discriminate|]. apply IH; assumption. Qed.
(** The extremum column: a sample with a sunspot number that lies in cycle c is attributed to c's maximum if its number is at
    least half of every number in the cycle, otherwise to c's own minimum while rising and to the next minimum while falling. *)
Lemma Forall2_map_in {A B} (P : A -> B -> Prop) f l : (forall s, In s l -> P s (f s)) -> Forall2 P l (map f l).
Proof. induction l as [|a l IH]; cbn; intros H; constructor; [apply H; auto|apply IH; auto]. Qed.
Definition at_least_half (data : list sample) (c : cyc) (x : Z) : Prop :=
  forall s' y, In s' data -> inside (c_all c) (s_t s') -> s_ssn s' = Some y -> y <= 2 * x.
Theorem C67_extremum_of_each_sample :
  forall now tbl cs n data, calculate_intervals now tbl = Ok cs -> consecutive n tbl -> tbl <> [] -> maxima_known tbl ->
  Forall2 (fun s e => forall c x, In c cs -> inside (c_all c) (s_t s) -> s_ssn s = Some x ->
    (at_least_half data c x -> e = Some (c_no c, "Max"%string)) /\
    (~ at_least_half data c x -> inside (c_rise c) (s_t s) -> e = Some (c_no c, "Min"%string)) /\
    (~ at_least_half data c x -> ~ inside (c_rise c) (s_t s) -> e = Some (c_no c + 1, "Min"%string))) data (calculate_extrema_kind tbl cs data).
Proof.
  intros now tbl cs n data H C N M. unfold calculate_extrema_kind.
  assert (K : forall s, In s data -> forall c x, In c cs -> inside (c_all c) (s_t s) -> s_ssn s = Some x ->
    let e := match cycle_of cs (s_t s) with Some k => extremum_of tbl k (group cs k data) s | None => None end in
    (at_least_half data c x -> e = Some (c_no c, "Max"%string)) /\
    (~ at_least_half data c x -> inside (c_rise c) (s_t s) -> e = Some (c_no c, "Min"%string)) /\
    (~ at_least_half data c x -> ~ inside (c_rise c) (s_t s) -> e = Some (c_no c + 1, "Min"%string))).
  { intros s Is c x I T X. cbv zeta. rewrite (cycle_of_spec now tbl cs n H C N c _ I T). destruct (cycle_row now tbl cs n c H C I) as (r & t0 & t2 & Ir & EN & E0 & EA & ER & L & EF & LK).
    destruct (x_max r) as [m|] eqn:EM; [|exfalso; apply (M r Ir EM)]. assert (P : peak (now / day * day) r = m) by (unfold peak; rewrite EM; reflexivity). rewrite P in *. clear P.
    assert (G : forall s', In s' (group cs (c_no c) data) <-> In s' data /\ inside (c_all c) (s_t s')).
    { intros s'. unfold group. rewrite filter_In. split.
      - intros [A B]. split; [exact A|]. destruct (cycle_of cs (s_t s')) as [k|] eqn:Q; [|discriminate]. apply Z.eqb_eq in B. subst k. apply cycle_of_inv in Q. destruct Q as (d & Id & Ed & Td).
        assert (d = c); [|subst; exact Td]. assert (NDc : NoDup (map c_no cs)) by (rewrite (intervals_numbers _ _ _ H); apply (consecutive_nodup _ _ C)).
        clear - NDc Id I Ed. induction cs as [|a cs IH]; [contradiction|]. cbn in NDc. inversion NDc as [|? ? NI ND']; subst. destruct Id as [->|Id], I as [->|I]; [reflexivity| | |apply IH; assumption].
        + exfalso. apply NI. rewrite Ed. apply in_map, I.
        + exfalso. apply NI. rewrite <- Ed. apply in_map, Id.
      - intros [A B]. split; [exact A|]. rewrite (cycle_of_spec now tbl cs n H C N c _ I B). apply Z.eqb_refl. }
    unfold extremum_of. rewrite X, LK, EM. destruct (zmax (map s_ssn (group cs (c_no c) data))) as [top|] eqn:Z.
    - apply zmax_spec in Z. destruct Z as [Z1 Z2]. assert (AL : at_least_half data c x <-> top <= 2 * x).
      { split.
        - intros A. apply in_map_iff in Z1. destruct Z1 as (s' & E' & I'). apply G in I'. apply (A s' top); [apply I'|apply I'|exact E'].
        - intros A s' y Is' T' Y. assert (Q : y <= top) by (apply Z2; rewrite <- Y; apply in_map, G; auto). lia. }
      rewrite AL. rewrite ER. unfold inside in *. rewrite EA in T. cbn [i_l i_r] in T |- *. destruct (Z.leb_spec top (2 * x)).
      + split; [reflexivity|]. split; intros Q; lia.
      + split; [lia|]. destruct (Z.leb_spec (s_t s) m); split; intros _ Q; try reflexivity; lia.
    - exfalso. apply (zmax_none _ x Z). rewrite <- X. apply in_map, G. auto. }
  apply Forall2_map_in. intros s Is c x. apply (K s Is c x).
Qed.
Print Assumptions C67_extremum_of_each_sample.
Example C67_ex : maxima_known ssn_extrema.
Proof.
  intros r I. assert (K : forallb (fun r => match x_max r with Some _ => true | None => false end) ssn_extrema = true) by (vm_compute; reflexivity).
  rewrite forallb_forall in K. specialize (K r I). destruct (x_max r); [discriminate|congruence].
Qed.
