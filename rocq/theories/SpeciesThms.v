(** Property theorems C01-C04, C41: species strings. *)
From Coq Require Import List String Ascii Bool Arith Permutation Sorted.
From Verif Require Import Py PyStr Species SpeciesProofs.
Import ListNotations.
Open Scope string_scope.

(** A legal species name contains neither '+' nor ','. *)
Definition legal (n : string) : Prop := has_char plus n = false /\ has_char comma n = false.

(** C01: "s0+s1+..." parses to the sorted names. *)
Theorem C01_single_argument_sorted_names :
  forall names, names <> [] -> (forall n, In n names -> legal n) ->
  exists t, conform_species [PStr (join "+" names)] = Ok t /\
            Permutation t names /\ StronglySorted (fun a b => str_leb a b = true) t.
Proof.
  intros names Hne Hl. exists (sort_str names). split; [|split].
  - apply conform_join; [exact Hne| |]; intros n Hn; apply Hl; exact Hn.
  - apply sort_perm.
  - apply sort_sorted.
Qed.
Example C01_ex : conform_species [PStr "p1+a"] = Ok ["a"; "p1"]. Proof. reflexivity. Qed.
Print Assumptions C01_single_argument_sorted_names.

(** C01: the order in which the names are written is irrelevant. *)
Theorem C01_name_order_irrelevant :
  forall names names', names <> [] -> (forall n, In n names -> legal n) -> Permutation names names' ->
  conform_species [PStr (join "+" names)] = conform_species [PStr (join "+" names')].
Proof. intros names names' H1 H2. apply conform_order; [exact H1| |]; intros n Hn; apply H2; exact Hn. Qed.
Print Assumptions C01_name_order_irrelevant.

(** C01: re-joining and parsing again changes nothing. *)
Theorem C01_reparse_is_identity :
  forall s t, conform_species [PStr s] = Ok t -> conform_species [PStr (join "+" t)] = Ok t.
Proof. exact conform_reparse. Qed.
Print Assumptions C01_reparse_is_identity.

(** C01: several arguments give the sorted arguments, in whatever order they are passed. *)
Theorem C01_several_arguments_order_irrelevant :
  forall ss ss', Permutation ss ss' -> List.length ss <> 1 ->
  conform_species (map PStr ss) = conform_species (map PStr ss').
Proof.
  intros ss ss' HP Hl. unfold conform_species. rewrite !all_strs_map.
  rewrite (has_char_perm_exists (has_char comma) _ _ HP), (has_char_perm_exists (has_char plus) _ _ HP).
  rewrite (Permutation_length HP).
  destruct (existsb (has_char comma) ss'); [reflexivity|].
  destruct (existsb (has_char plus) ss' && (1 <? List.length ss')%nat); [reflexivity|].
  pose proof (Permutation_length HP) as L.
  destruct ss as [|a [|b l]], ss' as [|a' [|b' l']]; simpl in *; try congruence.
  f_equal. exact (sort_perm_invariant _ _ HP).
Qed.
Example C01_ex2 : conform_species [PStr "p1"; PStr "a"] = Ok ["a"; "p1"]. Proof. reflexivity. Qed.
Print Assumptions C01_several_arguments_order_irrelevant.

(** C02: TypeError iff a non-string; else ValueError iff a comma, or a '+' among several; else success. *)
Theorem C02_type_error_iff :
  forall args, conform_species args = Err TypeError <-> In POther args.
Proof.
  intros args. split.
  - intros H. apply all_strs_none. unfold conform_species in H.
    destruct (all_strs args) as [ss|]; [|reflexivity].
    destruct (existsb (has_char comma) ss); [discriminate|].
    destruct (existsb (has_char plus) ss && _); discriminate.
  - apply (conform_characterised args).
Qed.
Print Assumptions C02_type_error_iff.

Definition badly_formed (ss : list string) : Prop :=
  (exists s, In s ss /\ has_char comma s = true) \/
  ((1 < List.length ss)%nat /\ exists s, In s ss /\ has_char plus s = true).

Theorem C02_value_error_iff :
  forall ss, conform_species (map PStr ss) = Err ValueError <-> badly_formed ss.
Proof.
  intros ss. destruct (conform_characterised (map PStr ss)) as [_ [H1 H2]]. split.
  - intros H. unfold conform_species in H. rewrite all_strs_map in H.
    destruct (existsb (has_char comma) ss) eqn:E.
    + left. apply existsb_exists in E. exact E.
    + destruct (existsb (has_char plus) ss && (1 <? List.length ss)%nat) eqn:F; [|discriminate].
      apply andb_true_iff in F as [F1 F2]. right.
      split; [apply Nat.ltb_lt; exact F2|]. apply existsb_exists in F1; exact F1.
  - intros H. apply (H1 ss eq_refl H).
Qed.
Print Assumptions C02_value_error_iff.

Theorem C02_success_iff :
  forall args, (exists t, conform_species args = Ok t) <->
               exists ss, args = map PStr ss /\ ~ badly_formed ss.
Proof.
  intros args. split.
  - intros [t H]. destruct (all_strs args) as [ss|] eqn:E.
    + exists ss. split; [apply all_strs_some; exact E|].
      apply all_strs_some in E; subst. intros B. apply C02_value_error_iff in B. congruence.
    + unfold conform_species in H. rewrite E in H. discriminate.
  - intros [ss [-> H]]. apply (conform_characterised (map PStr ss)) with (ss := ss); auto.
Qed.
Example C02_ex : ~ badly_formed ["a"; "p1"].
Proof. intros [[s [[<-|[<-|[]]] H]]|[_ [s [[<-|[<-|[]]] H]]]]; discriminate. Qed.
Print Assumptions C02_success_iff.

(** C03: the species stored by a constructor. *)
Theorem C03_setting_species :
  forall species,
  (species = [] -> clean_species_for_setting species = Err ValueError) /\
  (species <> [] -> (exists s, In s species /\ has_char plus s = true) ->
     clean_species_for_setting species = Err AssertionError) /\
  (species <> [] -> (forall s, In s species -> has_char plus s = false) ->
     exists t, clean_species_for_setting species = Ok t /\ Permutation t species /\
               StronglySorted (fun a b => str_leb a b = true) t).
Proof.
  intros species. rewrite clean_spec. split; [|split].
  - intros ->; reflexivity.
  - intros Hne Hex. destruct species; [congruence|].
    apply existsb_exists in Hex. rewrite Hex. reflexivity.
  - intros Hne Hf. destruct species as [|x l]; [congruence|].
    apply existsb_false_forall in Hf. rewrite Hf. eexists; split; [reflexivity|].
    split; [apply sort_perm|apply sort_sorted].
Qed.
Example C03_ex : clean_species_for_setting ["p1"; "a"] = Ok ["a"; "p1"]. Proof. reflexivity. Qed.
Print Assumptions C03_setting_species.

Theorem C03_setting_species_idempotent :
  forall species t, clean_species_for_setting species = Ok t -> clean_species_for_setting t = Ok t.
Proof. exact clean_idem. Qed.
Print Assumptions C03_setting_species_idempotent.

(** C03: an Ion accepts a name iff it has no '+', and keeps it as it is. *)
Theorem C03_ion_species :
  forall s, ((exists t, ion_set_species s = Ok t) <-> has_char plus s = false) /\
            (forall t, ion_set_species s = Ok t -> t = s) /\
            (forall e, ion_set_species s = Err e -> e = ValueError).
Proof.
  intros s. unfold ion_set_species. destruct (has_char plus s); repeat split; intros; try congruence.
  - destruct H; discriminate.
  - eauto.
Qed.
Print Assumptions C03_ion_species.

(** C04, as far as it holds: a missing non-empty name is reported with ValueError; and success
    means exactly that all non-empty requested names are available. *)
Theorem C04_unavailable_nonempty_reported_partial :
  forall ions args t, conform_species args = Ok t ->
  (exists s, In s t /\ s <> "" /\ ~ In s ions) -> chk_species ions args = Err ValueError.
Proof. exact chk_unavailable. Qed.
Example C04_ex : chk_species ["a"; "p1"] [PStr "a+p2"] = Err ValueError. Proof. reflexivity. Qed.
Print Assumptions C04_unavailable_nonempty_reported_partial.

Theorem C04_check_succeeds_iff :
  forall ions args t, chk_species ions args = Ok t <->
  conform_species args = Ok t /\ forall s, In s t -> s <> "" -> In s ions.
Proof. exact chk_ok_iff. Qed.
Print Assumptions C04_check_succeeds_iff.

(** C04 is false as stated: the check accepts the unavailable empty name (a stray '+'). *)
Theorem C04_unavailable_always_reported_refuted :
  exists ions args t s, conform_species args = Ok t /\ In s t /\ ~ In s ions /\
                        chk_species ions args = Ok t.
Proof.
  exists ["a"; "p1"], [PStr "a+"], [""; "a"], "".
  repeat split; try reflexivity; [left; reflexivity|].
  intros [H|[H|[]]]; discriminate.
Qed.
Print Assumptions C04_unavailable_always_reported_refuted.

(** C41: the species of an AlfvenicTurbulence. *)
Theorem C41_rejects_iff_two_commas :
  forall s, alf_clean_species (PStr s) = Err ValueError <-> (1 < count_char comma s)%nat.
Proof.
  intros s. unfold alf_clean_species. destruct (1 <? count_char comma s)%nat eqn:E.
  - apply Nat.ltb_lt in E. tauto.
  - apply Nat.ltb_ge in E. split; [discriminate|]. intros H. exfalso. apply (Nat.lt_irrefl 1).
    apply Nat.lt_le_trans with (count_char comma s); assumption.
Qed.
Print Assumptions C41_rejects_iff_two_commas.

Theorem C41_canonical_idempotent :
  forall s t, alf_clean_species (PStr s) = Ok t -> alf_clean_species (PStr t) = Ok t.
Proof. exact alf_clean_idem. Qed.
Print Assumptions C41_canonical_idempotent.

(** each side of the comma becomes the '+'-join of its names, sorted *)
Theorem C41_sides_sorted :
  forall s t, alf_clean_species (PStr s) = Ok t ->
  exists sides, t = join "," sides /\ List.length sides = S (count_char comma s) /\
    Forall2 (fun side orig => exists names, side = join "+" names /\
                Permutation names (split_on plus orig) /\
                StronglySorted (fun a b => str_leb a b = true) names)
            sides (split_on comma s).
Proof.
  intros s t H. apply alf_clean_ok in H as [_ ->].
  exists (map canon_group (split_on comma s)). split; [reflexivity|]. split.
  - rewrite map_length. apply count_split.
  - generalize (split_on comma s). intros l. induction l as [|x l IH]; simpl; constructor; [|exact IH].
    exists (sort_str (split_on plus x)). split; [reflexivity|]. split; [apply sort_perm|apply sort_sorted].
Qed.
Example C41_ex : alf_clean_species (PStr "p2+a,p1") = Ok "a+p2,p1". Proof. reflexivity. Qed.
Print Assumptions C41_sides_sorted.

Theorem C41_order_irrelevant :
  forall names names', names <> [] -> (forall n, In n names -> legal n) -> Permutation names names' ->
  alf_clean_species (PStr (join "+" names)) = alf_clean_species (PStr (join "+" names')).
Proof. exact alf_order_one. Qed.
Print Assumptions C41_order_irrelevant.

(** ... and the same on each side of the comma. *)
Theorem C41_order_irrelevant_two_sides :
  forall l l' r r', l <> [] -> r <> [] -> (forall n, In n (l ++ r) -> legal n) ->
  Permutation l l' -> Permutation r r' ->
  alf_clean_species (PStr (join "+" l ++ "," ++ join "+" r)) =
  alf_clean_species (PStr (join "+" l' ++ "," ++ join "+" r')).
Proof. exact alf_order_two. Qed.
Example C41_ex2 : forall n, In n (["p2"; "a"] ++ ["p1"]) -> legal n.
Proof. intros n [<-|[<-|[<-|[]]]]; split; reflexivity. Qed.
Print Assumptions C41_order_irrelevant_two_sides.
