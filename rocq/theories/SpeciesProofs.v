From Coq Require Import List String Ascii Bool Arith Lia Permutation Sorted.
From Verif Require Import Py PyStr Species.
Import ListNotations.
Open Scope string_scope.

Lemma all_strs_map l : all_strs (map PStr l) = Some l.
Proof. induction l as [|x l IH]; simpl; [reflexivity|]. rewrite IH; reflexivity. Qed.

Lemma all_strs_none l : all_strs l = None <-> In POther l.
Proof.
  induction l as [|x l IH]; simpl; [split; [discriminate|tauto]|].
  destruct x as [s|].
  - destruct (all_strs l) as [t|]; split.
    + discriminate.
    + intros [H|H]; [discriminate|]. apply IH in H; discriminate.
    + intros _. right. apply IH; reflexivity.
    + reflexivity.
  - split; auto.
Qed.

Lemma all_strs_some l t : all_strs l = Some t -> l = map PStr t.
Proof.
  revert t; induction l as [|x l IH]; simpl; intros t H; [inversion H; reflexivity|].
  destruct x as [s|]; [|discriminate].
  destruct (all_strs l) as [u|]; [|discriminate]. inversion H; subst. simpl. f_equal. apply IH; reflexivity.
Qed.

Lemma existsb_false_forall {A} (f : A -> bool) l :
  existsb f l = false <-> forall x, In x l -> f x = false.
Proof.
  induction l as [|x l IH]; simpl; [split; [tauto|reflexivity]|].
  rewrite orb_false_iff, IH. split.
  - intros [H1 H2] y [Hy|Hy]; subst; auto.
  - intros H; split; auto.
Qed.

Lemma has_char_perm_exists (f : string -> bool) l1 l2 :
  Permutation l1 l2 -> existsb f l1 = existsb f l2.
Proof.
  intros HP. destruct (existsb f l1) eqn:E1, (existsb f l2) eqn:E2; try reflexivity; exfalso.
  - apply existsb_exists in E1 as [x [Hx Hf]].
    rewrite existsb_false_forall in E2. rewrite (E2 x) in Hf; [discriminate|].
    eapply Permutation_in; eauto.
  - apply existsb_exists in E2 as [x [Hx Hf]].
    rewrite existsb_false_forall in E1. rewrite (E1 x) in Hf; [discriminate|].
    eapply Permutation_in; [symmetry; exact HP|exact Hx].
Qed.

Lemma conform_single s :
  has_char comma s = false -> conform_species [PStr s] = Ok (sort_str (split_on plus s)).
Proof.
  intros H. unfold conform_species. simpl. rewrite H. simpl. rewrite andb_false_r. reflexivity.
Qed.

Lemma conform_join names :
  names <> [] -> (forall n, In n names -> has_char plus n = false) ->
  (forall n, In n names -> has_char comma n = false) ->
  conform_species [PStr (join "+" names)] = Ok (sort_str names).
Proof.
  intros Hne Hp Hc. rewrite conform_single.
  - change "+" with (String plus ""). rewrite split_join; auto.
  - rewrite has_char_join by reflexivity. apply existsb_false_forall; exact Hc.
Qed.

Lemma conform_order names names' :
  names <> [] -> (forall n, In n names -> has_char plus n = false) ->
  (forall n, In n names -> has_char comma n = false) ->
  Permutation names names' ->
  conform_species [PStr (join "+" names)] = conform_species [PStr (join "+" names')].
Proof.
  intros Hne Hp Hc HP. rewrite !conform_join; auto.
  - f_equal. apply sort_perm_invariant; exact HP.
  - intros H; subst. symmetry in HP; apply Permutation_nil in HP; contradiction.
  - intros n Hn; apply Hp. eapply Permutation_in; [symmetry; exact HP|exact Hn].
  - intros n Hn; apply Hc. eapply Permutation_in; [symmetry; exact HP|exact Hn].
Qed.

Lemma split_comma_free s p : has_char comma s = false -> In p (split_on plus s) -> has_char comma p = false.
Proof.
  revert p. induction s as [|d s IH]; cbn [split_on has_char]; intros p Hs.
  - intros [H|[]]; subst; reflexivity.
  - apply orb_false_iff in Hs as [H1 H2].
    destruct (Ascii.eqb plus d) eqn:E.
    + intros [H|H]; [subst; reflexivity|auto].
    + destruct (split_on plus s) as [|q qs] eqn:F; [exfalso; exact (split_on_nonempty _ _ F)|].
      cbn. intros [H|H]; subst.
      * cbn [has_char]. rewrite H1. cbn [orb]. apply IH; [exact H2|left; reflexivity].
      * apply IH; [exact H2|right; exact H].
Qed.

Lemma conform_single_ok s t :
  conform_species [PStr s] = Ok t ->
  has_char comma s = false /\ t = sort_str (split_on plus s).
Proof.
  unfold conform_species. simpl. destruct (has_char comma s); [discriminate|].
  simpl. rewrite andb_false_r. intros H; inversion H. auto.
Qed.

Lemma conform_reparse s t :
  conform_species [PStr s] = Ok t -> conform_species [PStr (join "+" t)] = Ok t.
Proof.
  intros H. apply conform_single_ok in H as [Hc ->].
  rewrite conform_join.
  - rewrite sort_idem; reflexivity.
  - intros E. apply (split_on_nonempty plus s).
    apply Permutation_nil. rewrite <- E. apply sort_perm.
  - intros n Hn. apply (split_on_free plus s), sort_In, Hn.
  - intros n Hn. apply (split_comma_free s); [exact Hc|apply sort_In, Hn].
Qed.

Lemma conform_characterised args :
  (In POther args -> conform_species args = Err TypeError) /\
  (forall ss, args = map PStr ss ->
     ((exists s, In s ss /\ has_char comma s = true) \/
      ((1 < List.length ss)%nat /\ exists s, In s ss /\ has_char plus s = true)) ->
     conform_species args = Err ValueError) /\
  (forall ss, args = map PStr ss ->
     ~ ((exists s, In s ss /\ has_char comma s = true) \/
        ((1 < List.length ss)%nat /\ exists s, In s ss /\ has_char plus s = true)) ->
     exists t, conform_species args = Ok t).
Proof.
  split; [|split].
  - intros H. apply all_strs_none in H. unfold conform_species; rewrite H; reflexivity.
  - intros ss -> H. unfold conform_species. rewrite all_strs_map.
    destruct (existsb (has_char comma) ss) eqn:E; [reflexivity|].
    destruct H as [[s [Hs Hc]]|[Hl [s [Hs Hc]]]].
    + rewrite existsb_false_forall in E. rewrite E in Hc by exact Hs; discriminate.
    + assert (existsb (has_char plus) ss = true) as -> by (apply existsb_exists; exists s; auto).
      apply Nat.ltb_lt in Hl; rewrite Hl. reflexivity.
  - intros ss -> H. unfold conform_species. rewrite all_strs_map.
    destruct (existsb (has_char comma) ss) eqn:E.
    + exfalso; apply H; left. apply existsb_exists in E. exact E.
    + destruct (existsb (has_char plus) ss) eqn:F; simpl.
      * destruct (1 <? List.length ss)%nat eqn:G.
        -- exfalso; apply H; right. apply Nat.ltb_lt in G; split; [exact G|].
           apply existsb_exists in F; exact F.
        -- eexists; reflexivity.
      * eexists; reflexivity.
Qed.

Lemma conform_multi_ok ss t :
  List.length ss <> 1%nat ->
  conform_species (map PStr ss) = Ok t ->
  t = sort_str ss /\ forall s, In s ss -> has_char comma s = false /\
     ((1 < List.length ss)%nat -> has_char plus s = false).
Proof.
  intros Hl. unfold conform_species. rewrite all_strs_map.
  destruct (existsb (has_char comma) ss) eqn:E; [discriminate|].
  destruct (existsb (has_char plus) ss && (1 <? List.length ss)%nat) eqn:F; [discriminate|].
  intros H; inversion H; subst; clear H. split.
  - destruct ss as [|x [|y ss]]; try reflexivity. simpl in Hl; lia.
  - intros s Hs. rewrite existsb_false_forall in E. split; [auto|].
    intros Hgt. apply andb_false_iff in F as [F|F].
    + rewrite existsb_false_forall in F; auto.
    + apply Nat.ltb_ge in F; lia.
Qed.

(** Every successfully parsed name is free of '+' and ','. *)
Lemma conform_names_free args t :
  conform_species args = Ok t -> forall s, In s t -> has_char plus s = false /\ has_char comma s = false.
Proof.
  intros H s Hs. destruct (all_strs args) as [ss|] eqn:E.
  2:{ unfold conform_species in H; rewrite E in H; discriminate. }
  apply all_strs_some in E; subst.
  destruct ss as [|x [|y ss]].
  - unfold conform_species in H; simpl in H. inversion H; subst. destruct Hs.
  - apply conform_single_ok in H as [Hc ->]. rewrite sort_In in Hs. split.
    + apply (split_on_free _ _ _ Hs).
    + apply (split_comma_free _ _ Hc Hs).
  - apply conform_multi_ok in H; [|simpl; lia]. destruct H as [-> H].
    rewrite sort_In in Hs. destruct (H s Hs) as [H1 H2]. split; [apply H2; simpl; lia|exact H1].
Qed.

Lemma concat_split_free l :
  (forall s, In s l -> has_char plus s = false) -> List.concat (map (split_on plus) l) = l.
Proof.
  induction l as [|x l IH]; intros H; simpl; [reflexivity|].
  rewrite split_on_nochar by (apply H; left; reflexivity). simpl. f_equal.
  apply IH; intros s Hs; apply H; right; exact Hs.
Qed.

Lemma chk_ok_iff ions args t :
  chk_species ions args = Ok t <->
  conform_species args = Ok t /\ forall s, In s t -> s <> "" -> In s ions.
Proof.
  unfold chk_species. rewrite bind_ok. split.
  - intros [u [Hu H]]. pose proof (conform_names_free _ _ Hu) as Hf.
    rewrite concat_split_free in H by (intros s Hs; apply Hf; exact Hs).
    destruct (existsb _ _) eqn:E; [discriminate|]. inversion H; subst.
    split; [exact Hu|]. intros s Hs Hne.
    rewrite existsb_false_forall in E.
    destruct (mem_str s ions) eqn:M; [apply mem_str_In; exact M|].
    assert (Hin : In s (filter (fun s => negb (mem_str s ions)) (unique_str t))).
    { apply filter_In; split; [apply unique_str_In; exact Hs|]. rewrite M; reflexivity. }
    apply E in Hin. apply negb_false_iff, String.eqb_eq in Hin. congruence.
  - intros [Hu H]. exists t; split; [exact Hu|].
    pose proof (conform_names_free _ _ Hu) as Hf.
    rewrite concat_split_free by (intros s Hs; apply Hf; exact Hs).
    destruct (existsb _ _) eqn:E; [|reflexivity]. exfalso.
    apply existsb_exists in E as [s [Hs Hne]].
    apply filter_In in Hs as [Hs Hm]. rewrite unique_str_In in Hs.
    apply negb_true_iff in Hne, Hm. apply mem_str_not in Hm. apply Hm, H; [exact Hs|].
    intros ->. simpl in Hne. discriminate.
Qed.

Lemma chk_unavailable ions args t :
  conform_species args = Ok t -> (exists s, In s t /\ s <> "" /\ ~ In s ions) ->
  chk_species ions args = Err ValueError.
Proof.
  intros Hu [s [Hs [Hne Hni]]].
  destruct (chk_species ions args) as [u|e] eqn:E.
  - apply chk_ok_iff in E as [E1 E2]. rewrite Hu in E1; inversion E1; subst.
    exfalso; apply Hni, E2; assumption.
  - unfold chk_species in E. rewrite Hu in E. simpl in E.
    destruct (existsb _ _) in E; inversion E; reflexivity.
Qed.

Lemma clean_spec species :
  clean_species_for_setting species =
  match species with
  | [] => Err ValueError
  | _ => if existsb (has_char plus) species then Err AssertionError else Ok (sort_str species)
  end.
Proof.
  unfold clean_species_for_setting. destruct species as [|x l]; [reflexivity|].
  replace (forallb (fun s => negb (has_char plus s)) (x :: l))
    with (negb (existsb (has_char plus) (x :: l))); [destruct (existsb _ _); reflexivity|].
  generalize (x :: l); intros m. induction m as [|y m IH]; simpl; [reflexivity|].
  rewrite <- IH, negb_orb. reflexivity.
Qed.

Lemma clean_idem species t :
  clean_species_for_setting species = Ok t -> clean_species_for_setting t = Ok t.
Proof.
  rewrite !clean_spec. destruct species as [|x l]; [discriminate|].
  destruct (existsb (has_char plus) (x :: l)) eqn:E; [discriminate|].
  intros H. assert (t = sort_str (x :: l)) as -> by congruence.
  rewrite (has_char_perm_exists _ _ _ (sort_perm (x :: l))), E, sort_idem.
  destruct (sort_str (x :: l)) as [|y m] eqn:F; [|reflexivity].
  exfalso. pose proof (sort_length (x :: l)) as L. rewrite F in L. discriminate.
Qed.

(* ------------------------------------------------ Alfvenic turbulence *)
Definition canon_group (t : string) : string := join "+" (sort_str (split_on plus t)).

Lemma canon_group_comma t : has_char comma t = false -> has_char comma (canon_group t) = false.
Proof.
  intros H. unfold canon_group. rewrite has_char_join by reflexivity.
  apply existsb_false_forall; intros p Hp. rewrite sort_In in Hp. apply (split_comma_free _ _ H Hp).
Qed.

Lemma canon_group_idem t : canon_group (canon_group t) = canon_group t.
Proof.
  unfold canon_group. change "+" with (String plus "") at 2. rewrite split_join.
  - rewrite sort_idem; reflexivity.
  - intros E. apply (split_on_nonempty plus t), Permutation_nil. rewrite <- E. apply sort_perm.
  - intros p Hp. rewrite sort_In in Hp. apply (split_on_free _ _ _ Hp).
Qed.

Lemma alf_clean_ok s t :
  alf_clean_species (PStr s) = Ok t <->
  (count_char comma s <= 1)%nat /\ t = join "," (map canon_group (split_on comma s)).
Proof.
  unfold alf_clean_species. destruct (1 <? count_char comma s)%nat eqn:E.
  - apply Nat.ltb_lt in E. split; [discriminate|]. intros [H _]; lia.
  - apply Nat.ltb_ge in E. split.
    + intros H; inversion H; auto.
    + intros [_ ->]; reflexivity.
Qed.

Lemma alf_split s :
  split_on comma (join "," (map canon_group (split_on comma s))) = map canon_group (split_on comma s).
Proof.
  change "," with (String comma ""). apply split_join.
  - intros E. apply map_eq_nil in E. exact (split_on_nonempty _ _ E).
  - intros p Hp. apply in_map_iff in Hp as [q [<- Hq]].
    apply canon_group_comma, (split_on_free _ _ _ Hq).
Qed.

Lemma alf_clean_idem s t :
  alf_clean_species (PStr s) = Ok t -> alf_clean_species (PStr t) = Ok t.
Proof.
  intros H. apply alf_clean_ok in H as [Hc ->]. apply alf_clean_ok.
  pose proof (count_split comma (join "," (map canon_group (split_on comma s)))) as L.
  rewrite alf_split, map_length, count_split in L. split; [lia|].
  rewrite alf_split, map_map. f_equal. apply map_ext. intros p. symmetry. apply canon_group_idem.
Qed.

Lemma canon_group_perm names names' :
  names <> [] -> (forall n, In n names -> has_char plus n = false) -> Permutation names names' ->
  canon_group (join "+" names) = canon_group (join "+" names').
Proof.
  intros Hne Hf HP. unfold canon_group. change "+" with (String plus "").
  rewrite !split_join; auto.
  - f_equal. apply sort_perm_invariant; exact HP.
  - intros ->. symmetry in HP. apply Permutation_nil in HP; contradiction.
  - intros n Hn; apply Hf. eapply Permutation_in; [symmetry; exact HP|exact Hn].
Qed.

Lemma alf_order_one names names' :
  names <> [] -> (forall n, In n names -> has_char plus n = false /\ has_char comma n = false) ->
  Permutation names names' ->
  alf_clean_species (PStr (join "+" names)) = alf_clean_species (PStr (join "+" names')).
Proof.
  intros Hne Hf HP.
  assert (N : forall l, (forall n, In n l -> has_char plus n = false /\ has_char comma n = false) ->
     alf_clean_species (PStr (join "+" l)) = Ok (canon_group (join "+" l))).
  { intros l Hl. apply alf_clean_ok.
    assert (C : has_char comma (join "+" l) = false).
    { rewrite has_char_join by reflexivity. apply existsb_false_forall. intros p Hp; apply Hl; exact Hp. }
    rewrite (split_on_nochar _ _ C). simpl. split; [|reflexivity].
    destruct (count_char comma (join "+" l)) eqn:E; [lia|].
    assert (has_char comma (join "+" l) = true) by (apply has_count; lia). congruence. }
  rewrite !N.
  - f_equal. apply canon_group_perm; auto. intros n Hn; apply Hf; exact Hn.
  - intros n Hn; apply Hf. eapply Permutation_in; [symmetry; exact HP|exact Hn].
  - exact Hf.
Qed.

Lemma join_comma_free l :
  (forall n, In n l -> has_char plus n = false /\ has_char comma n = false) ->
  has_char comma (join "+" l) = false.
Proof.
  intros Hl. rewrite has_char_join by reflexivity. apply existsb_false_forall.
  intros p Hp; apply Hl; exact Hp.
Qed.

Lemma alf_order_two l l' r r' :
  l <> [] -> r <> [] ->
  (forall n, In n (l ++ r)%list -> has_char plus n = false /\ has_char comma n = false) ->
  Permutation l l' -> Permutation r r' ->
  alf_clean_species (PStr (join "+" l ++ "," ++ join "+" r)) =
  alf_clean_species (PStr (join "+" l' ++ "," ++ join "+" r')).
Proof.
  intros Hl Hr Hf HPl HPr.
  assert (N : forall a b, (forall n, In n (a ++ b)%list -> has_char plus n = false /\ has_char comma n = false) ->
     alf_clean_species (PStr (join "+" a ++ "," ++ join "+" b)) =
     Ok (canon_group (join "+" a) ++ "," ++ canon_group (join "+" b))).
  { intros a b Hab.
    assert (Ca : has_char comma (join "+" a) = false).
    { apply join_comma_free. intros n Hn. apply Hab, in_or_app; left; exact Hn. }
    assert (Cb : has_char comma (join "+" b) = false).
    { apply join_comma_free. intros n Hn. apply Hab, in_or_app; right; exact Hn. }
    assert (S : split_on comma (join "+" a ++ "," ++ join "+" b) = [join "+" a; join "+" b]).
    { pose proof (split_join comma [join "+" a; join "+" b]) as J. cbn [join] in J.
      apply J; [discriminate|]. intros q [<-|[<-|[]]]; assumption. }
    apply alf_clean_ok. split.
    - pose proof (count_split comma (join "+" a ++ "," ++ join "+" b)) as L.
      rewrite S in L. simpl List.length in L. lia.
    - rewrite S. reflexivity. }
  rewrite !N.
  - f_equal. f_equal; [|f_equal]; apply canon_group_perm; auto;
      intros n Hn; apply Hf, in_or_app; auto.
  - intros n Hn. apply Hf. apply in_or_app. apply in_app_or in Hn as [Hn|Hn];
      [left; eapply Permutation_in; [symmetry; exact HPl|exact Hn]
      |right; eapply Permutation_in; [symmetry; exact HPr|exact Hn]].
  - exact Hf.
Qed.
