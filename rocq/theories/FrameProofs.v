(** Proofs about the data tables of a Plasma. *)
From Coq Require Import List String Ascii Bool Arith ZArith Sorted Permutation Lia.
From Verif Require Import Py PyStr Sort Num Species SpeciesProofs Frame.
Import ListNotations.
Open Scope string_scope.
Open Scope py_scope.

(* ------------------------------------------------------------ keys *)
Lemma key_eqb_eq a b : key_eqb a b = true <-> a = b.
Proof.
  unfold key_eqb. rewrite !andb_true_iff, !String.eqb_eq.
  destruct a as [[a1 a2] a3], b as [[b1 b2] b3]. unfold kM, kC, kS. simpl. split.
  - intros [[-> ->] ->]. reflexivity.
  - intros H; inversion H; auto.
Qed.
Lemma mem_key_In k l : mem_key k l = true <-> In k l.
Proof.
  unfold mem_key. rewrite existsb_exists. split.
  - intros [x [Hx E]]. apply key_eqb_eq in E. subst; exact Hx.
  - intros H. exists k. split; [exact H|apply key_eqb_eq; reflexivity].
Qed.
Lemma mem_key_not k l : mem_key k l = false <-> ~ In k l.
Proof. rewrite <- mem_key_In. destruct (mem_key k l); intuition congruence. Qed.

Lemma key_leb_total a b : key_leb a b = true \/ key_leb b a = true.
Proof.
  unfold key_leb. rewrite (String.eqb_sym (kM b)), (String.eqb_sym (kC b)).
  destruct (String.eqb_spec (kM a) (kM b)); [|apply str_leb_total].
  destruct (String.eqb_spec (kC a) (kC b)); apply str_leb_total.
Qed.
Lemma key_leb_antisym a b : key_leb a b = true -> key_leb b a = true -> a = b.
Proof.
  destruct a as [[a1 a2] a3], b as [[b1 b2] b3]. unfold key_leb, kM, kC, kS. simpl.
  rewrite (String.eqb_sym b1), (String.eqb_sym b2).
  destruct (String.eqb_spec a1 b1) as [->|N1].
  - destruct (String.eqb_spec a2 b2) as [->|N2]; intros H1 H2.
    + rewrite (str_leb_antisym _ _ H1 H2). reflexivity.
    + exfalso. apply N2. apply str_leb_antisym; assumption.
  - intros H1 H2. exfalso. apply N1. apply str_leb_antisym; assumption.
Qed.
Lemma key_leb_trans a b c : key_leb a b = true -> key_leb b c = true -> key_leb a c = true.
Proof.
  destruct a as [[a1 a2] a3], b as [[b1 b2] b3], c as [[c1 c2] c3]. unfold key_leb, kM, kC, kS. simpl.
  destruct (String.eqb_spec a1 b1) as [->|N1].
  - destruct (String.eqb_spec b1 c1) as [->|N2]; [|auto].
    destruct (String.eqb_spec a2 b2) as [->|N3].
    + destruct (String.eqb_spec b2 c2) as [->|N4]; [apply str_leb_trans|auto].
    + destruct (String.eqb_spec b2 c2) as [->|N4].
      * destruct (String.eqb_spec a2 c2); [contradiction|auto].
      * destruct (String.eqb_spec a2 c2) as [->|N5].
        { intros H1 H2. exfalso. apply N3. apply str_leb_antisym; assumption. }
        apply str_leb_trans.
  - destruct (String.eqb_spec b1 c1) as [->|N2].
    + destruct (String.eqb_spec a1 c1); [contradiction|auto].
    + destruct (String.eqb_spec a1 c1) as [->|N3]; [|apply str_leb_trans].
      intros H1 H2. exfalso. apply N1. apply str_leb_antisym; assumption.
Qed.

Lemma nodup_key_In k l : In k (nodup_key l) <-> In k l.
Proof.
  induction l as [|x l IH]; simpl; [tauto|].
  destruct (mem_key x l) eqn:E.
  - rewrite IH. split; [auto|]. intros [<-|H]; [apply mem_key_In, E|exact H].
  - simpl. rewrite IH. tauto.
Qed.
Lemma nodup_key_NoDup l : NoDup (nodup_key l).
Proof.
  induction l as [|x l IH]; simpl; [constructor|].
  destruct (mem_key x l) eqn:E; [exact IH|]. constructor; [|exact IH].
  rewrite nodup_key_In. apply mem_key_not, E.
Qed.
Lemma nodup_key_sorted l : StronglySorted (leP key_leb) l -> StronglySorted (leP key_leb) (nodup_key l).
Proof.
  induction l as [|x l IH]; simpl; intros H; [constructor|].
  inversion H as [|? ? Hs Hf]; subst.
  destruct (mem_key x l); [apply IH, Hs|]. constructor; [apply IH, Hs|].
  rewrite Forall_forall in *. intros y Hy. rewrite nodup_key_In in Hy. apply Hf, Hy.
Qed.
Lemma filter_sorted {A} (R : A -> A -> Prop) p l : StronglySorted R l -> StronglySorted R (filter p l).
Proof.
  induction l as [|x l IH]; simpl; intros H; [constructor|].
  inversion H as [|? ? Hs Hf]; subst. destruct (p x); [|apply IH, Hs].
  constructor; [apply IH, Hs|]. rewrite Forall_forall in *. intros y Hy. apply filter_In in Hy as [Hy _]. auto.
Qed.
Lemma Forall2_impl_strong {A B} (P Q : A -> B -> Prop) l l' :
  (forall a b, P a b -> Q a b) -> Forall2 P l l' -> Forall2 Q l l'.
Proof. intros H HF. induction HF; constructor; auto. Qed.
Lemma filter_true {A} (p : A -> bool) l : (forall x, In x l -> p x = true) -> filter p l = l.
Proof.
  induction l as [|x l IH]; simpl; intros H; [reflexivity|].
  rewrite (H x (or_introl eq_refl)), IH; [reflexivity|]. intros y Hy; apply H; right; exact Hy.
Qed.

Lemma has_label_In get x cols : has_label get x cols = true <-> exists k, In k cols /\ get k = x.
Proof.
  unfold has_label. rewrite existsb_exists. split; intros [k [H E]]; exists k; split; auto; apply String.eqb_eq; exact E.
Qed.

Lemma in_slice_iff sp k : in_slice sp k = true <->
  In (kM k) plasma_M /\ In (kC k) plasma_C /\ (In (kS k) sp \/ kS k = "").
Proof.
  unfold in_slice. rewrite !andb_true_iff, !mem_str_In, in_app_iff. simpl. intuition.
Qed.

Definition is_scalar (k : key) : Prop := kM k = "w" /\ kC k = "scalar".
Lemma is_wcol_iff k : is_wcol k = true <-> kM k = "w" /\ (kC k = "par" \/ kC k = "per").
Proof. unfold is_wcol. rewrite andb_true_iff, orb_true_iff, !String.eqb_eq. reflexivity. Qed.
Lemma slice_not_scalar sp k : in_slice sp k = true -> ~ is_scalar k.
Proof.
  rewrite in_slice_iff. intros (_ & H & _) [_ E]. rewrite E in H. simpl in H. intuition discriminate.
Qed.
Lemma wcol_not_scalar k : is_wcol k = true -> ~ is_scalar k.
Proof. rewrite is_wcol_iff. intros [_ H] [_ E]. rewrite E in H. destruct H; discriminate. Qed.

Lemma NoDup_app_disj {A} (l1 l2 : list A) :
  NoDup l1 -> NoDup l2 -> (forall x, In x l1 -> In x l2 -> False) -> NoDup (l1 ++ l2).
Proof.
  induction l1 as [|x l IH]; simpl; intros N1 N2 D; [exact N2|].
  inversion N1 as [|? ? Hx N1']; subst. constructor.
  - rewrite in_app_iff. intros [H|H]; [contradiction|]. exact (D x (or_introl eq_refl) H).
  - apply IH; auto. intros y H1 H2. exact (D y (or_intror H1) H2).
Qed.

Section Set_.
  Context {T : Type} {A : Arith T}.
  Implicit Types (new d : frame T) (sp : list string).

  Definition wl (cols : list key) (s : string) : list key :=
    filter (fun k => is_wcol k && String.eqb (kS k) s) cols.
  Lemma wl_In k cols s : In k (wl cols s) <-> In k cols /\ is_wcol k = true /\ kS k = s.
  Proof. unfold wl. rewrite filter_In, andb_true_iff, String.eqb_eq. tauto. Qed.
  Lemma wl_eq c1 c2 s :
    StronglySorted (leP key_leb) c1 -> StronglySorted (leP key_leb) c2 -> NoDup c1 -> NoDup c2 ->
    (forall k, is_wcol k = true -> kS k = s -> (In k c1 <-> In k c2)) -> wl c1 s = wl c2 s.
  Proof.
    intros S1 S2 N1 N2 H. apply (sorted_set_eq key_leb key_leb_antisym).
    - apply filter_sorted, S1.
    - apply filter_sorted, S2.
    - apply NoDup_filter, N1.
    - apply NoDup_filter, N2.
    - intros k. rewrite !wl_In. split; intros (Hi & Hw & Hs); specialize (H k Hw Hs); tauto.
  Qed.
  Lemma w_scalar_wl c1 c2 s (r : row T) : wl c1 s = wl c2 s -> w_scalar c1 s r = w_scalar c2 s r.
  Proof. unfold w_scalar, wl. intros ->. reflexivity. Qed.

  (** what a successful [plasma_set_data] tells *)
  Record stored sp new d : Prop := {
    st_rows_ne : f_rows new <> [];
    st_slice : slice_ok sp (f_cols new) = true;
    st_dt : f_dt d = f_dt new;
    st_sorted : StronglySorted (leP key_leb) (f_cols d);
    st_nodup : NoDup (f_cols d);
    st_cols : forall k, In k (f_cols d) <->
       (In k (f_cols new) /\ in_slice sp k = true) \/
       (is_scalar k /\ exists c, (c = "par" \/ c = "per") /\ In ("w", c, kS k) (f_cols new) /\
                                 in_slice sp ("w", c, kS k) = true);
    st_rows : exists kept, (forall s, wl kept s = wl (f_cols d) s) /\
       f_rows d = map (fun zr => (fst zr, add_scalar kept (snd zr))) (f_rows new);
    st_b : forall c, In c ["x"; "y"; "z"] -> In ("b", c, "") (f_cols d);
    st_par : exists k, In k (f_cols d) /\ in_slice sp k = true /\ kC k = "par";
    st_per : exists k, In k (f_cols d) /\ in_slice sp k = true /\ kC k = "per";
  }.

  Lemma set_data_stored sp new d : plasma_set_data sp new = Ok d -> stored sp new d.
  Proof.
    unfold plasma_set_data.
    destruct (f_empty new) eqn:E0; [discriminate|].
    destruct (slice_ok sp (f_cols new)) eqn:E1; [|discriminate]. cbn [negb].
    set (kept := nodup_key (sort_by key_leb (filter (in_slice sp) (f_cols new)))).
    destruct (has_label kM "w" kept && has_label kC "par" kept && has_label kC "per" kept) eqn:E2; [|discriminate].
    cbn [negb].
    destruct (has_label kM "b" kept) eqn:E3; [|discriminate]. cbn [negb].
    destruct (existsb _ kept) eqn:E4; [|discriminate]. cbn [negb].
    destruct (forallb _ ["x"; "y"; "z"]) eqn:E5; [|discriminate]. cbn [negb].
    intros H. injection H as <-.
    assert (K : forall k, In k kept <-> In k (f_cols new) /\ in_slice sp k = true).
    { intros k. unfold kept. rewrite nodup_key_In, sort_by_In, filter_In. reflexivity. }
    assert (KS : StronglySorted (leP key_leb) kept).
    { apply nodup_key_sorted, sort_by_sorted; [exact key_leb_total|exact key_leb_trans]. }
    assert (KN : NoDup kept) by apply nodup_key_NoDup.
    set (ss := unique_str (map kS (filter is_wcol kept))).
    assert (SS : forall s, In s ss <-> exists c, (c = "par" \/ c = "per") /\ In ("w", c, s) kept).
    { intros s. unfold ss. rewrite unique_str_In, in_map_iff. split.
      - intros [k [<- Hk]]. apply filter_In in Hk as [Hk Hw]. apply is_wcol_iff in Hw as [HM HC].
        destruct k as [[m c] s']. unfold kM, kC, kS in *. simpl in *. subst m. exists c. auto.
      - intros [c [Hc Hk]]. exists ("w", c, s). split; [reflexivity|]. apply filter_In. split; [exact Hk|].
        apply is_wcol_iff. split; [reflexivity|exact Hc]. }
    assert (NS : NoDup (map (fun s => ("w", "scalar", s)) ss)).
    { apply FinFun.Injective_map_NoDup.
      - intros x y Hxy. inversion Hxy. reflexivity.
      - unfold ss, unique_str. apply (Permutation_NoDup (Permutation_sym (sort_perm _))), nodup_str_NoDup. }
    set (cols := sort_by key_leb (kept ++ map (fun s => ("w", "scalar", s)) ss)).
    assert (CI : forall k, In k cols <-> In k kept \/ (is_scalar k /\ In (kS k) ss)).
    { intros k. unfold cols. rewrite sort_by_In, in_app_iff, in_map_iff. split.
      - intros [H|[s [<- Hs]]]; [auto|]. right. split; [split; reflexivity|exact Hs].
      - intros [H|[[HM HC] Hs]]; [auto|]. right. exists (kS k). split; [|exact Hs].
        destruct k as [[m c] s]. unfold kM, kC, kS in *. simpl in *. subst. reflexivity. }
    assert (CS : StronglySorted (leP key_leb) cols)
      by (apply sort_by_sorted; [exact key_leb_total|exact key_leb_trans]).
    assert (CN : NoDup cols).
    { apply sort_by_NoDup. apply NoDup_app_disj; [exact KN|exact NS|].
      intros k Hk Hm. apply in_map_iff in Hm as [s [<- _]]. apply K in Hk as [_ Hk].
      apply slice_not_scalar in Hk. apply Hk. split; reflexivity. }
    assert (W : forall s, wl kept s = wl cols s).
    { intros s. apply wl_eq; auto. intros k Hw _. rewrite CI. split; [auto|].
      intros [H|[H _]]; [exact H|]. exfalso. exact (wcol_not_scalar k Hw H). }
    apply andb_true_iff in E2 as [E2 E2c]. apply andb_true_iff in E2 as [_ E2b].
    split; cbn [f_cols f_rows f_dt].
    - intros H. unfold f_empty in E0. rewrite H in E0. destruct (f_cols new); discriminate.
    - exact E1.
    - reflexivity.
    - exact CS.
    - exact CN.
    - intros k. fold ss cols. rewrite CI, K. split.
      + intros [H|[H Hs]]; [auto|]. right. split; [exact H|]. apply SS in Hs as [c [Hc Hk]].
        exists c. apply K in Hk. tauto.
      + intros [H|[H [c [Hc Hk]]]]; [auto|]. right. split; [exact H|]. apply SS. exists c. rewrite K. auto.
    - exists kept. split; [exact W|reflexivity].
    - intros c Hc. fold ss cols. apply CI. left. rewrite forallb_forall in E5. apply mem_key_In, E5, Hc.
    - apply has_label_In in E2b as [k [Hk E]]. exists k. fold ss cols. rewrite CI. apply K in Hk as Hk'. tauto.
    - apply has_label_In in E2c as [k [Hk E]]. exists k. fold ss cols. rewrite CI. apply K in Hk as Hk'. tauto.
  Qed.

  (** a table with every column a plasma of species [sp] needs *)
  Record complete sp new : Prop := {
    cp_rows : f_rows new <> [];
    cp_sp : sp <> [];
    cp_ions : forall s, In s sp -> forall k, In k (ion_required s) -> In k (f_cols new);
    cp_b : forall c, In c ["x"; "y"; "z"] -> In ("b", c, "") (f_cols new);
  }.

  Lemma ion_required_slice sp s k : In s sp -> In k (ion_required s) -> in_slice sp k = true.
  Proof.
    intros Hs Hk. apply in_slice_iff. unfold ion_required in Hk. simpl in Hk.
    repeat destruct Hk as [<-|Hk]; try contradiction; unfold kM, kC, kS, plasma_M, plasma_C; simpl; tauto.
  Qed.
  Lemma b_slice sp c : In c ["x"; "y"; "z"] -> in_slice sp ("b", c, "") = true.
  Proof.
    intros Hc. apply in_slice_iff. simpl in Hc.
    repeat destruct Hc as [<-|Hc]; try contradiction; unfold kM, kC, kS, plasma_M, plasma_C; simpl; tauto.
  Qed.

  Lemma label_of get k cols : In k cols -> has_label get (get k) cols = true.
  Proof. intros H. apply has_label_In. exists k. auto. Qed.

  Lemma complete_ok sp new : complete sp new -> exists d, plasma_set_data sp new = Ok d.
  Proof.
    intros [HR HS HI HB]. unfold plasma_set_data.
    destruct sp as [|s0 sp0]; [contradiction|]. set (sp := s0 :: sp0) in *.
    assert (Hs0 : In s0 sp) by (left; reflexivity).
    assert (HB1 := HB "x" (or_introl eq_refl)).
    assert (HB2 := HB "y" (or_intror (or_introl eq_refl))).
    assert (HB3 := HB "z" (or_intror (or_intror (or_introl eq_refl)))).
    assert (R : forall k, In k (ion_required s0) -> In k (f_cols new)) by (apply HI, Hs0).
    assert (E0 : f_empty new = false).
    { unfold f_empty. destruct (f_cols new); [destruct HB1|]. destruct (f_rows new); [contradiction|reflexivity]. }
    rewrite E0.
    assert (E1 : slice_ok sp (f_cols new) = true).
    { unfold slice_ok. rewrite !andb_true_iff, !forallb_forall. repeat split.
      - intros m Hm. unfold plasma_M in Hm. simpl in Hm.
        destruct Hm as [<-|[<-|[<-|[<-|[]]]]].
        + exact (label_of kM _ _ HB1).
        + apply (label_of kM ("n", "", s0)), R; simpl; tauto.
        + apply (label_of kM ("v", "x", s0)), R; simpl; tauto.
        + apply (label_of kM ("w", "par", s0)), R; simpl; tauto.
      - intros c Hc. unfold plasma_C in Hc. simpl in Hc.
        destruct Hc as [<-|[<-|[<-|[<-|[<-|[<-|[]]]]]]].
        + apply (label_of kC ("n", "", s0)), R; simpl; tauto.
        + apply (label_of kC ("v", "x", s0)), R; simpl; tauto.
        + apply (label_of kC ("v", "y", s0)), R; simpl; tauto.
        + apply (label_of kC ("v", "z", s0)), R; simpl; tauto.
        + apply (label_of kC ("w", "per", s0)), R; simpl; tauto.
        + apply (label_of kC ("w", "par", s0)), R; simpl; tauto.
      - intros x Hx. apply in_app_or in Hx as [Hx|[<-|[]]].
        + apply (label_of kS ("n", "", x)). apply (HI x Hx). left; reflexivity.
        + exact (label_of kS _ _ HB1). }
    rewrite E1. cbn [negb].
    set (kept := nodup_key (sort_by key_leb (filter (in_slice sp) (f_cols new)))).
    assert (K : forall k, In k kept <-> In k (f_cols new) /\ in_slice sp k = true).
    { intros k. unfold kept. rewrite nodup_key_In, sort_by_In, filter_In. reflexivity. }
    assert (KR : forall k, In k (ion_required s0) -> In k kept).
    { intros k Hk. apply K. split; [apply R, Hk|]. exact (ion_required_slice sp s0 k Hs0 Hk). }
    assert (KB : forall c, In c ["x"; "y"; "z"] -> In ("b", c, "") kept).
    { intros c Hc. apply K. split; [apply HB, Hc|apply b_slice, Hc]. }
    assert (E2 : has_label kM "w" kept && has_label kC "par" kept && has_label kC "per" kept = true).
    { rewrite !andb_true_iff. repeat split.
      - apply (label_of kM ("w", "par", s0)), KR; simpl; tauto.
      - apply (label_of kC ("w", "par", s0)), KR; simpl; tauto.
      - apply (label_of kC ("w", "per", s0)), KR; simpl; tauto. }
    rewrite E2. cbn [negb].
    assert (E3 : has_label kM "b" kept = true).
    { apply (label_of kM ("b", "x", "")), KB; simpl; tauto. }
    rewrite E3. cbn [negb].
    assert (E4 : existsb (fun k => String.eqb (kM k) "b" && String.eqb (kS k) "") kept = true).
    { apply existsb_exists. exists ("b", "x", ""). split; [apply KB; simpl; tauto|reflexivity]. }
    rewrite E4. cbn [negb].
    assert (E5 : forallb (fun c => mem_key ("b", c, "") kept) ["x"; "y"; "z"] = true).
    { apply forallb_forall. intros c Hc. apply mem_key_In, KB, Hc. }
    rewrite E5. cbn [negb]. eexists; reflexivity.
  Qed.

  Definition same_rows (cols : list key) (a b : list (Z * row T)) : Prop :=
    Forall2 (fun x y => fst x = fst y /\ forall k, In k cols -> snd x k = snd y k) a b.
  Lemma same_rows_index cols a b : same_rows cols a b -> map fst a = map fst b.
  Proof.
    unfold same_rows. induction 1 as [|x y l l' H _ IH]; [reflexivity|]. destruct H as [H _].
    cbn [map]. rewrite IH. f_equal. exact H.
  Qed.

  Lemma add_scalar_other cols (r : row T) k : ~ is_scalar k -> add_scalar cols r k = r k.
  Proof.
    intros H. unfold add_scalar.
    destruct (String.eqb_spec (kM k) "w"), (String.eqb_spec (kC k) "scalar"); simpl; try reflexivity.
    exfalso. apply H. split; assumption.
  Qed.
  Lemma add_scalar_scalar cols (r : row T) k : is_scalar k -> add_scalar cols r k = w_scalar cols (kS k) r.
  Proof. intros [H1 H2]. unfold add_scalar. rewrite H1, H2. reflexivity. Qed.

  Lemma w_scalar_ext cols s (r r' : row T) : (forall k, is_wcol k = true -> kS k = s -> r k = r' k) ->
    w_scalar cols s r = w_scalar cols s r'.
  Proof.
    intros H. unfold w_scalar. do 2 f_equal. apply map_ext_in. intros k Hk.
    apply filter_In in Hk as [_ Hk]. apply andb_true_iff in Hk as [Hk Hs]. apply String.eqb_eq in Hs.
    rewrite (H k Hk Hs). reflexivity.
  Qed.

  (** storing again what was stored, or part of it *)
  Lemma restore sp new d sub d' d'' :
    stored sp new d -> incl sub sp ->
    (forall k, In k (f_cols d') <-> In k (f_cols d) /\ keep_mask sub k = true) ->
    f_rows d' = f_rows d -> stored sub d' d'' ->
    f_cols d'' = filter (keep_mask sub) (f_cols d) /\ same_rows (f_cols d'') (f_rows d) (f_rows d'').
  Proof.
    intros H HI HC HR H'.
    assert (KM : forall k, keep_mask sub k = true <-> kS k = "" \/ In (kS k) sub).
    { intros k. unfold keep_mask. rewrite orb_true_iff, String.eqb_eq, mem_str_In. reflexivity. }
    assert (SL : forall k, in_slice sub k = true <-> in_slice sp k = true /\ keep_mask sub k = true).
    { intros k. rewrite !in_slice_iff, KM. split.
      - intros (A1 & A2 & A3). repeat split; auto; destruct A3; auto.
      - intros ((A1 & A2 & _) & [A3|A3]); auto. }
    assert (CE : f_cols d'' = filter (keep_mask sub) (f_cols d)).
    { apply (sorted_set_eq key_leb key_leb_antisym).
      - exact (st_sorted _ _ _ H').
      - apply filter_sorted. exact (st_sorted _ _ _ H).
      - exact (st_nodup _ _ _ H').
      - apply NoDup_filter. exact (st_nodup _ _ _ H).
      - intros k. rewrite filter_In, (st_cols _ _ _ H'). split.
        + intros [[A1 A2]|[A1 [c [Hc [A2 A3]]]]].
          * apply HC in A1. exact A1.
          * apply HC in A2 as [A2 _]. apply SL in A3 as [A3 A4]. split; [|exact A4].
            apply (st_cols _ _ _ H) in A2 as [[A2 _]|[[_ B] _]].
            { apply (st_cols _ _ _ H). right. split; [exact A1|]. exists c. auto. }
            { unfold kC in B. simpl in B. subst c. destruct Hc; discriminate. }
        + intros [A1 A2]. pose proof A1 as A1'. apply (st_cols _ _ _ H) in A1 as [[A3 A4]|[A3 [c [Hc [A4 A5]]]]].
          * left. rewrite HC, SL. auto.
          * right. split; [exact A3|]. exists c. split; [exact Hc|]. rewrite HC, SL.
            assert (keep_mask sub ("w", c, kS k) = true) by exact A2.
            repeat split; auto. apply (st_cols _ _ _ H). left. auto. }
    split; [exact CE|].
    destruct (st_rows _ _ _ H) as [kept [W E]]. destruct (st_rows _ _ _ H') as [kept' [W' E']].
    rewrite E', HR, E. rewrite map_map. unfold same_rows.
    clear E E' HR. induction (f_rows new) as [|[z r] l IH]; simpl; [constructor|]. constructor; [|exact IH].
    simpl. split; [reflexivity|]. intros k Hk.
    assert (Dec : is_scalar k \/ ~ is_scalar k).
    { unfold is_scalar. destruct (string_dec (kM k) "w"), (string_dec (kC k) "scalar"); tauto. }
    destruct Dec as [D|D].
    - rewrite !add_scalar_scalar by exact D.
      rewrite (w_scalar_wl kept (f_cols d)) by apply W.
      rewrite (w_scalar_wl kept' (f_cols d'')) by apply W'.
      rewrite (w_scalar_ext (f_cols d'') (kS k) (add_scalar kept r) r)
        by (intros k' Hk' _; apply add_scalar_other, wcol_not_scalar, Hk').
      apply w_scalar_wl. rewrite CE in *. apply filter_In in Hk as [_ Hk].
      apply wl_eq.
      + exact (st_sorted _ _ _ H).
      + apply filter_sorted. exact (st_sorted _ _ _ H).
      + exact (st_nodup _ _ _ H).
      + apply NoDup_filter. exact (st_nodup _ _ _ H).
      + intros k' Hw Hs. rewrite filter_In. split; [|tauto]. intros Hi. split; [exact Hi|].
        apply KM. rewrite Hs. apply KM, Hk.
    - rewrite !add_scalar_other by exact D. reflexivity.
  Qed.

  Lemma mapM_unit {B} (f : B -> result unit) l : (exists us, mapM f l = Ok us) <-> forall x, In x l -> f x = Ok tt.
  Proof.
    split.
    - intros [us H]. apply mapM_ok in H. induction H as [|x u l us Hx _ IH]; intros y; [intros []|intros [<-|Hy]; [destruct u; exact Hx|auto]].
    - induction l as [|x l IH]; intros H; [eexists; reflexivity|].
      destruct IH as [us E]; [intros y Hy; apply H; right; exact Hy|].
      simpl. rewrite (H x (or_introl eq_refl)), E. eexists; reflexivity.
  Qed.

  Lemma ion_set_ok d s : f_empty d = false ->
    (ion_set_data d s = Ok tt <-> forall k, In k (ion_required s) -> In k (f_cols d)).
  Proof.
    intros E. unfold ion_set_data. rewrite E.
    destruct (forallb (fun k => mem_key k (f_cols d)) (ion_required s)) eqn:F.
    - rewrite forallb_forall in F.
      assert (G : has_label kS s (f_cols d) = true).
      { apply (label_of kS ("n", "", s)). apply mem_key_In, F. left; reflexivity. }
      rewrite G. simpl negb. cbv iota. split; [|reflexivity].
      intros _ k Hk. apply mem_key_In, F, Hk.
    - split.
      + destruct (has_label kS s (f_cols d)); discriminate.
      + intros H. exfalso. assert (forallb (fun k => mem_key k (f_cols d)) (ion_required s) = true).
        { apply forallb_forall. intros k Hk. apply mem_key_In, H, Hk. }
        congruence.
  Qed.

  Lemma ion_set_empty d s : f_empty d = true -> ion_set_data d s <> Ok tt.
  Proof. intros E. unfold ion_set_data. rewrite E. discriminate. Qed.

  (* ---------------------------------------------------------- plasmas *)
  Implicit Types p : plasma T.

  (** The invariant of a plasma that was never given a table through [set_data] by hand. *)
  Record wf p : Prop := {
    wf_stored : exists new, stored (p_species p) new (p_data p);
    wf_complete : complete (p_species p) (p_data p);
    wf_sorted : StronglySorted str_le (p_species p);
    wf_plus : forall s, In s (p_species p) -> has_char plus s = false;
    wf_comma : forall s, In s (p_species p) -> has_char comma s = false;
    wf_ions : p_ions p = nodup_str (p_species p);
    wf_ion_data : p_ion_data p = p_data p;
    wf_sc : forall sc, p_sc p = Some sc -> f_dt (sc_data sc) = true /\ f_index (sc_data sc) = f_index (p_data p);
    wf_aux : forall a, p_aux p = Some a -> f_dt a = true /\ f_index a = f_index (p_data p) /\
                         forall k, In k (f_cols a) -> ~ In k (f_cols (p_data p));
  }.

  Lemma complete_nonempty sp d : complete sp d -> f_empty d = false.
  Proof.
    intros [H1 H2 H3 H4]. unfold f_empty. destruct (f_cols d) eqn:E.
    - destruct (H4 "x" (or_introl eq_refl)).
    - destruct (f_rows d); [contradiction|reflexivity].
  Qed.

  Lemma forallb_plus sp : forallb (fun s => negb (has_char plus s)) sp = true <->
    forall s, In s sp -> has_char plus s = false.
  Proof.
    rewrite forallb_forall. split; intros H s Hs; specialize (H s Hs); destruct (has_char plus s); auto; discriminate.
  Qed.

  Lemma set_ions_ok sp d :
    f_rows d <> [] -> sp <> [] -> (forall c, In c ["x"; "y"; "z"] -> In ("b", c, "") (f_cols d)) ->
    (forall s, In s sp -> has_char plus s = false) -> (forall s, sp = [s] -> has_char comma s = false) ->
    (set_ions sp d = Ok sp <-> complete sp d) /\ ((exists e, set_ions sp d = Ok e) <-> complete sp d).
  Proof.
    intros HR HS HB HP HC. unfold set_ions.
    assert (E : match sp with [s] => split_on comma s | _ => sp end = sp).
    { destruct sp as [|s [|t l]]; try reflexivity. apply split_on_nochar, HC. reflexivity. }
    rewrite E. apply forallb_plus in HP. rewrite HP.
    assert (NE : f_empty d = false).
    { unfold f_empty. destruct (f_cols d); [destruct (HB "x" (or_introl eq_refl))|].
      destruct (f_rows d); [contradiction|reflexivity]. }
    assert (G : (exists us, mapM (fun s => ion_set_data d s) sp = Ok us) <-> complete sp d).
    { rewrite mapM_unit. split.
      - intros H. split; [exact HR|exact HS| |exact HB]. intros s Hs. apply (ion_set_ok d s NE), H, Hs.
      - intros [_ _ H _] s Hs. apply (ion_set_ok d s NE), H, Hs. }
    destruct (mapM (fun s => ion_set_data d s) sp) as [us|e] eqn:EM; cbn [bind].
    - assert (complete sp d) by (apply G; eauto). split; split; auto; intros; eexists; reflexivity.
    - assert (~ complete sp d) by (intros H; apply G in H as [us H]; discriminate).
      split; split; try contradiction; intros; try discriminate. destruct H0; discriminate.
  Qed.

  Lemma list_Z_eqb_eq a b : list_Z_eqb a b = true <-> a = b.
  Proof. unfold list_Z_eqb. destruct (list_eq_dec Z.eq_dec a b); split; congruence. Qed.

  Lemma stored_index sp new d : stored sp new d -> f_index d = f_index new.
  Proof.
    intros H. destruct (st_rows _ _ _ H) as [kept [_ E]]. unfold f_index. rewrite E, map_map. reflexivity.
  Qed.
  Lemma stored_rows_ne sp new d : stored sp new d -> f_rows d <> [].
  Proof.
    intros H E. destruct (st_rows _ _ _ H) as [kept [_ E']]. rewrite E in E'.
    pose proof (st_rows_ne _ _ _ H). destruct (f_rows new); [contradiction|discriminate].
  Qed.

  Lemma sc_check_ok d (new : option (spacecraft T)) : sc_check d new = Ok tt <->
    forall sc, new = Some sc -> f_dt (sc_data sc) = true /\ f_index (sc_data sc) = f_index d.
  Proof.
    unfold sc_check. destruct new as [sc|].
    - destruct (f_dt (sc_data sc)) eqn:E1; [|split; [discriminate|intros H; destruct (H sc eq_refl); congruence]].
      destruct (list_Z_eqb (f_index (sc_data sc)) (f_index d)) eqn:E2.
      + apply list_Z_eqb_eq in E2. split; [|reflexivity]. intros _ sc' H. inversion H; subst; auto.
      + split; [discriminate|]. intros H. destruct (H sc eq_refl) as [_ H'].
        apply list_Z_eqb_eq in H'. congruence.
    - split; [discriminate|reflexivity].
  Qed.
  Lemma aux_check_ok d (new : option (frame T)) : aux_check d new = Ok tt <->
    forall a, new = Some a -> f_dt a = true /\ f_index a = f_index d /\
       forall k, In k (f_cols a) -> ~ In k (f_cols d).
  Proof.
    unfold aux_check. destruct new as [a|]; [|split; [discriminate|reflexivity]].
    destruct (f_dt a) eqn:E1; [|split; [discriminate|intros H; destruct (H a eq_refl); congruence]].
    destruct (list_Z_eqb (f_index a) (f_index d)) eqn:E2.
    - apply list_Z_eqb_eq in E2.
      destruct (existsb (fun k => mem_key k (f_cols d)) (f_cols a)) eqn:E3.
      + split; [discriminate|]. intros H. exfalso. apply existsb_exists in E3 as [k [Hk E3]].
        apply mem_key_In in E3. destruct (H a eq_refl) as (_ & _ & H'). exact (H' k Hk E3).
      + split; [|reflexivity]. intros _ a' Ha. inversion Ha; subst a'. repeat split; auto.
        intros k Hk Hd. apply not_true_iff_false in E3. apply E3, existsb_exists. exists k.
        split; [exact Hk|apply mem_key_In, Hd].
    - split; [discriminate|]. intros H. destruct (H a eq_refl) as (_ & H' & _).
      apply list_Z_eqb_eq in H'. congruence.
  Qed.
  Lemma check_tt (m : result unit) : (exists u, m = Ok u) <-> m = Ok tt.
  Proof. split; [intros [[] H]; exact H|intros H; eauto]. Qed.

  Lemma set_spacecraft_ok p (new : option (spacecraft T)) p' : set_spacecraft p new = Ok p' <->
    sc_check (p_data p) new = Ok tt /\
    p' = {| p_species := p_species p; p_ions := p_ions p; p_data := p_data p; p_ion_data := p_ion_data p;
            p_sc := new; p_aux := p_aux p |}.
  Proof.
    unfold set_spacecraft. destruct (sc_check (p_data p) new) as [[]|e]; cbn [bind]; split.
    - intros H; inversion H; auto.
    - intros [_ ->]; reflexivity.
    - discriminate.
    - intros [H _]; discriminate.
  Qed.
  Lemma set_aux_ok p (new : option (frame T)) p' : set_aux p new = Ok p' <->
    aux_check (p_data p) new = Ok tt /\
    p' = {| p_species := p_species p; p_ions := p_ions p; p_data := p_data p; p_ion_data := p_ion_data p;
            p_sc := p_sc p; p_aux := new |}.
  Proof.
    unfold set_aux. destruct (aux_check (p_data p) new) as [[]|e]; cbn [bind]; split.
    - intros H; inversion H; auto.
    - intros [_ ->]; reflexivity.
    - discriminate.
    - intros [H _]; discriminate.
  Qed.

  Lemma clean_ok sp sp' : clean_species_for_setting sp = Ok sp' <->
    sp <> [] /\ (forall s, In s sp -> has_char plus s = false) /\ sp' = sort_str sp.
  Proof.
    unfold clean_species_for_setting. destruct sp as [|s l]; [split; [discriminate|intros [H _]; contradiction]|].
    destruct (forallb _ (s :: l)) eqn:E.
    - pose proof (proj1 (forallb_plus _) E) as E'. split; [intros H; inversion H; repeat split; auto; discriminate|].
      intros (_ & _ & ->). reflexivity.
    - split; [discriminate|]. intros (_ & H & _). apply (proj2 (forallb_plus _)) in H. congruence.
  Qed.

  (** an exact account of a successful construction *)
  Lemma make_plasma_inv data sp sc aux p : (forall s, In s sp -> has_char comma s = false) ->
    make_plasma data sp sc aux = Ok p ->
    wf p /\ stored (p_species p) data (p_data p) /\ p_species p = sort_str sp /\ p_sc p = sc /\ p_aux p = aux.
  Proof.
    unfold make_plasma.
    intros HK H. apply bind_ok in H as [sp' [HC H]]. apply clean_ok in HC as (HN & HP & ->).
    apply bind_ok in H as [d [HD H]]. apply set_data_stored in HD as ST.
    apply bind_ok in H as [ions [HI H]]. apply bind_ok in H as [p1 [HS H]].
    apply set_spacecraft_ok in HS as [CS ->]. apply set_aux_ok in H as [CA ->].
    cbn [p_species p_ions p_data p_ion_data p_sc p_aux] in *.
    set (sp' := sort_str sp) in *.
    assert (HP' : forall s, In s sp' -> has_char plus s = false).
    { intros s Hs. apply HP. unfold sp' in Hs. rewrite sort_In in Hs. exact Hs. }
    assert (HN' : sp' <> []).
    { intros E. apply HN. destruct sp as [|x l]; [reflexivity|exfalso].
      assert (Hx : In x sp') by (apply sort_In; left; reflexivity). rewrite E in Hx. destruct Hx. }
    assert (HK' : forall s, In s sp' -> has_char comma s = false).
    { intros s Hs. apply HK. unfold sp' in Hs. rewrite sort_In in Hs. exact Hs. }
    assert (HK1 : forall s, sp' = [s] -> has_char comma s = false).
    { intros s Es. apply HK'. rewrite Es. left; reflexivity. }
    destruct (set_ions_ok sp' d (stored_rows_ne _ _ _ ST) HN' (st_b _ _ _ ST) HP' HK1) as [I1 I2].
    assert (CM : complete sp' d) by (apply I2; eauto).
    assert (ions = sp') by (apply I1 in CM; congruence). subst ions.
    split; [|split; [exact ST|split; [reflexivity|split; reflexivity]]].
    split; cbn [p_species p_ions p_data p_ion_data p_sc p_aux]; auto.
    - eauto.
    - apply sort_sorted.
    - apply sc_check_ok, CS.
    - apply aux_check_ok, CA.
  Qed.

  Lemma filter_str_sorted (q : string -> bool) l : StronglySorted str_le l -> StronglySorted str_le (filter q l).
  Proof. apply filter_sorted. Qed.

  Lemma complete_sub sp d sub d' :
    complete sp d -> incl sub sp -> sub <> [] -> f_rows d' = f_rows d ->
    (forall k, In k (f_cols d) -> keep_mask sub k = true -> In k (f_cols d')) -> complete sub d'.
  Proof.
    intros [H1 H2 H3 H4] HI HN HR HC. split.
    - rewrite HR; exact H1.
    - exact HN.
    - intros s Hs k Hk. apply HC; [apply (H3 s (HI s Hs) k Hk)|].
      unfold keep_mask. rewrite orb_true_iff, mem_str_In. right.
      unfold ion_required in Hk. simpl in Hk.
      repeat destruct Hk as [<-|Hk]; try contradiction; exact Hs.
    - intros c Hc. apply HC; [apply H4, Hc|reflexivity].
  Qed.

  Definition select_aux (keep : list string) (a : option (frame T)) : option (frame T) :=
    match a with None => None | Some x => Some (f_select (keep_mask keep) x) end.

  Lemma f_select_In q (f : frame T) k : In k (f_cols (f_select q f)) <-> In k (f_cols f) /\ q k = true.
  Proof. simpl. apply filter_In. Qed.

  (** rebuilding a plasma from the columns of some of its species *)
  Lemma rebuild p sub :
    wf p -> incl sub (p_species p) -> sub <> [] -> StronglySorted str_le sub ->
    exists p', make_plasma (f_select (keep_mask sub) (p_data p)) sub (p_sc p) (select_aux sub (p_aux p)) = Ok p' /\
      wf p' /\ p_species p' = sub /\ f_cols (p_data p') = filter (keep_mask sub) (f_cols (p_data p)) /\
      same_rows (f_cols (p_data p')) (f_rows (p_data p)) (f_rows (p_data p')) /\
      f_dt (p_data p') = f_dt (p_data p) /\
      p_sc p' = p_sc p /\ p_aux p' = select_aux sub (p_aux p).
  Proof.
    intros W HI HN HS.
    set (d := f_select (keep_mask sub) (p_data p)).
    assert (CP : complete sub d).
    { apply (complete_sub (p_species p) (p_data p)); auto; [apply W|]. intros k Hk Hm. apply f_select_In. auto. }
    destruct (complete_ok sub d CP) as [d' Hd'].
    pose proof (set_data_stored _ _ _ Hd') as ST.
    destruct (wf_stored _ W) as [new SN].
    destruct (restore (p_species p) new (p_data p) sub d d' SN HI) as [EC ER]; auto.
    { intros k. apply f_select_In. }
    assert (EX : f_index d' = f_index (p_data p)) by (unfold f_index; symmetry; exact (same_rows_index _ _ _ ER)).
    assert (CP' : complete sub d').
    { split; [exact (stored_rows_ne _ _ _ ST)|exact HN| |exact (st_b _ _ _ ST)].
      intros s Hs k Hk. apply (st_cols _ _ _ ST). left. split; [apply (cp_ions _ _ CP s Hs k Hk)|].
      exact (ion_required_slice sub s k Hs Hk). }
    assert (HP : forall s, In s sub -> has_char plus s = false) by (intros s Hs; apply (wf_plus _ W), HI, Hs).
    assert (HC : forall s, In s sub -> has_char comma s = false) by (intros s Hs; apply (wf_comma _ W), HI, Hs).
    assert (HM : exists p', make_plasma d sub (p_sc p) (select_aux sub (p_aux p)) = Ok p' /\ p_data p' = d').
    { unfold make_plasma.
      assert (E1 : clean_species_for_setting sub = Ok sub).
      { apply clean_ok. repeat split; auto. symmetry. apply sort_fixed, HS. }
      rewrite E1. cbn [bind]. rewrite Hd'. cbn [bind].
      destruct (set_ions_ok sub d' (stored_rows_ne _ _ _ ST) HN (st_b _ _ _ ST) HP) as [I1 _].
      { intros s ->. apply HC. left; reflexivity. }
      apply I1 in CP' as I. rewrite I. cbn [bind].
      assert (E2 : sc_check d' (p_sc p) = Ok tt).
      { apply sc_check_ok. rewrite EX. apply (wf_sc _ W). }
      assert (E3 : aux_check d' (select_aux sub (p_aux p)) = Ok tt).
      { apply aux_check_ok. intros a Ha. unfold select_aux in Ha. destruct (p_aux p) as [a0|] eqn:EA; [|discriminate].
        injection Ha as <-. destruct (wf_aux _ W a0 EA) as (A1 & A2 & A3).
        split; [exact A1|]. split; [rewrite EX; exact A2|].
        intros k Hk Hd. apply f_select_In in Hk as [Hk _]. apply (A3 k Hk).
        rewrite EC in Hd. apply filter_In in Hd. tauto. }
      unfold set_spacecraft, set_aux. cbn [p_data]. rewrite E2. cbn [bind p_data]. rewrite E3. cbn [bind].
      eexists; split; reflexivity. }
    destruct HM as [p' [HM ED]]. exists p'. split; [exact HM|].
    destruct (make_plasma_inv d sub _ _ p' HC HM) as (WF & _ & SP & SC & AX).
    split; [exact WF|]. split; [rewrite SP; apply sort_fixed, HS|].
    rewrite ED. split; [exact EC|]. split; [exact ER|]. split; [exact (st_dt _ _ _ ST)|auto].
  Qed.

  Lemma drop_species_inv p args dropped :
    wf p -> chk_species (p_ions p) args = Ok dropped ->
    let keep := filter (fun s => negb (mem_str s dropped)) (p_species p) in
    (keep = [] -> drop_species p args = Err ValueError) /\
    (keep <> [] -> exists p', drop_species p args = Ok p' /\
      wf p' /\ p_species p' = keep /\ f_cols (p_data p') = filter (keep_mask keep) (f_cols (p_data p)) /\
      same_rows (f_cols (p_data p')) (f_rows (p_data p)) (f_rows (p_data p')) /\
      f_dt (p_data p') = f_dt (p_data p) /\
      p_sc p' = p_sc p /\ p_aux p' = select_aux keep (p_aux p)).
  Proof.
    intros W HC keep. unfold drop_species. rewrite HC. cbn [bind]. fold keep. split.
    - intros ->. reflexivity.
    - intros HN. destruct (rebuild p keep W) as [p' H]; auto.
      + intros s Hs. apply filter_In in Hs. tauto.
      + apply filter_sorted, W.
      + exists p'. destruct keep; [contradiction|]. exact H.
  Qed.

  Lemma set_same p : wf p -> exists p', call_set_data p (p_data p) = Ok p' /\
    f_cols (p_data p') = f_cols (p_data p) /\ f_dt (p_data p') = f_dt (p_data p) /\
    same_rows (f_cols (p_data p)) (f_rows (p_data p)) (f_rows (p_data p')) /\
    p_species p' = p_species p /\ p_ions p' = p_ions p /\ p_sc p' = p_sc p /\ p_aux p' = p_aux p.
  Proof.
    intros W. destruct (complete_ok _ _ (wf_complete _ W)) as [d' Hd'].
    pose proof (set_data_stored _ _ _ Hd') as ST. destruct (wf_stored _ W) as [new SN].
    assert (KM : forall k, In k (f_cols (p_data p)) -> keep_mask (p_species p) k = true).
    { intros k Hk. unfold keep_mask. rewrite orb_true_iff, String.eqb_eq, mem_str_In.
      apply (st_cols _ _ _ SN) in Hk as [[_ Hk]|[_ [c [_ [_ Hk]]]]]; apply in_slice_iff in Hk as (_ & _ & Hk);
        unfold kS in *; simpl in *; tauto. }
    destruct (restore (p_species p) new (p_data p) (p_species p) (p_data p) d' SN) as [EC ER]; auto.
    { intros s Hs; exact Hs. }
    { intros k. split; [|tauto]. intros Hk. split; [exact Hk|apply KM, Hk]. }
    rewrite filter_true in EC by exact KM.
    unfold call_set_data. rewrite Hd'. cbn [bind]. eexists; split; [reflexivity|].
    cbn [p_data p_species p_ions p_sc p_aux]. split; [exact EC|]. split; [exact (st_dt _ _ _ ST)|].
    rewrite EC in ER. auto.
  Qed.

  Lemma wf_set_spacecraft p (new : option (spacecraft T)) p' : wf p -> set_spacecraft p new = Ok p' -> wf p'.
  Proof.
    intros W H. apply set_spacecraft_ok in H as [H ->]. destruct W. split; cbn [p_species p_ions p_data p_ion_data p_sc p_aux]; auto.
    apply sc_check_ok, H.
  Qed.
  Lemma wf_set_aux p (new : option (frame T)) p' : wf p -> set_aux p new = Ok p' -> wf p'.
  Proof.
    intros W H. apply set_aux_ok in H as [H ->]. destruct W. split; cbn [p_species p_ions p_data p_ion_data p_sc p_aux]; auto.
    apply aux_check_ok, H.
  Qed.
  Lemma wf_drop p args p' : wf p -> drop_species p args = Ok p' -> wf p'.
  Proof.
    intros W H. pose proof H as H0. unfold drop_species in H0. apply bind_ok in H0 as [dr [HC _]].
    destruct (drop_species_inv p args dr W HC) as [H1 H2].
    destruct (filter (fun s => negb (mem_str s dr)) (p_species p)) eqn:E.
    - rewrite H1 in H by reflexivity. discriminate.
    - destruct H2 as [p2 [E2 [W2 _]]]; [discriminate|]. congruence.
  Qed.
End Set_.
