(** C58 (math escapes and names), C59 (cached annotation), C105 (printed precision), C106 (arguments), C107 (names accepted). *)
From Coq Require Import List String Ascii Bool Arith ZArith Lia Permutation.
From Verif Require Import Py PyStr TexInfo.
Import ListNotations.
Open Scope list_scope.
Open Scope string_scope.

Notation dollars := (count_char dollar).
Definition balanced (s : string) : Prop := Nat.Even (dollars s).

Lemma dollars_wrap x : dollars ("$" ++ x ++ "$") = S (S (dollars x)).
Proof. rewrite !count_char_app. cbn. lia. Qed.
Lemma Ok_inj {A} (a b : A) : Ok a = Ok b -> a = b.
Proof. congruence. Qed.
(* ================================================================ C58 *)
(** The escape check accepts exactly the strings with an even number of dollar signs, leaves those that have some alone
    and wraps those that have none; what it returns is always balanced and contains math. *)
Theorem C58_math_escapes :
  forall x, (forall y, check_math x = Ok y -> balanced y /\ (0 < dollars y)%nat /\ (y = x \/ (dollars x = 0%nat /\ y = "$" ++ x ++ "$"))) /\
  (balanced x <-> exists y, check_math x = Ok y) /\
  (forall y, check_math x = Ok y -> check_math y = Ok y).
Proof.
  intros x. assert (K : forall y, check_math x = Ok y -> balanced y /\ (0 < dollars y)%nat /\ (y = x \/ (dollars x = 0%nat /\ y = "$" ++ x ++ "$"))).
  { intros y H. unfold check_math in H. cbv zeta in H. destruct (Nat.eqb (dollars x) 0) eqn:E.
    - apply Nat.eqb_eq in E. destruct (Nat.even _) eqn:V; [|discriminate]. apply Ok_inj in H. subst y. split; [apply Nat.even_spec; exact V|].
      rewrite dollars_wrap. split; [lia|auto].
    - apply Nat.eqb_neq in E. destruct (Nat.even _) eqn:V; [|discriminate]. injection H as <-. split; [apply Nat.even_spec; exact V|]. split; [lia|auto]. }
  split; [exact K|]. split.
  - unfold balanced, check_math. split.
    + intros H. destruct (Nat.eqb (dollars x) 0) eqn:E.
      * apply Nat.eqb_eq in E. rewrite dollars_wrap, E. cbn. eauto.
      * apply Nat.even_spec in H. rewrite H. eauto.
    + intros [y H]. destruct (Nat.eqb (dollars x) 0) eqn:E.
      * apply Nat.eqb_eq in E. rewrite E. exists 0%nat. reflexivity.
      * destruct (Nat.even (dollars x)) eqn:V; [apply Nat.even_spec; exact V|discriminate].
  - intros y H. destruct (K y H) as (B & P & _). unfold check_math. assert (E : Nat.eqb (dollars y) 0 = false) by (apply Nat.eqb_neq; lia). rewrite E.
    apply Nat.even_spec in B. rewrite B. reflexivity.
Qed.
Print Assumptions C58_math_escapes.
Lemma strip_none s : dollars (strip_dollars s) = 0%nat.
Proof. induction s as [|c r IH]; [reflexivity|]. cbn [strip_dollars]. destruct (Ascii.eqb dollar c) eqn:E; [exact IH|]. cbn [count_char]. rewrite E. exact IH. Qed.
(** Each line of the parameter annotation, blank ones apart, is one math expression, whatever it was made from. *)
Theorem C58_annotation_lines_partial :
  forall x, x <> "" -> dollars (final_line x) = 2%nat /\ exists body, final_line x = "$ " ++ body ++ " $" /\ dollars body = 0%nat.
Proof.
  intros x N. unfold final_line. rewrite (proj2 (String.eqb_neq x "") N). split.
  - rewrite !count_char_app, strip_none. reflexivity.
  - exists (strip_dollars x). split; [reflexivity|apply strip_none].
Qed.
Print Assumptions C58_annotation_lines_partial.
(** Renaming: parameters that get a TeX name keep their value under it, the others keep name and value, and nothing is lost:
    for distinct new names none of which is a parameter name already. *)
Section Rename.
  Context {V : Type}.
  Notation dict := (list (string * V)).
  Lemma lookup_In (d : dict) k : lookup k d <> None <-> In k (map fst d).
  Proof.
    induction d as [|[k' v] d IH]; cbn; [split; [congruence|contradiction]|]. destruct (String.eqb k' k) eqn:E.
    - apply String.eqb_eq in E. subst. split; [auto|discriminate].
    - rewrite IH. apply String.eqb_neq in E. split; [auto|intros [H|H]; [contradiction|exact H]].
  Qed.
  Lemma lookup_none (d : dict) k : lookup k d = None <-> ~ In k (map fst d).
  Proof. rewrite <- lookup_In. destruct (lookup k d) as [v|]; split; [discriminate|intros H; exfalso; apply H; discriminate|intros _ H; apply H; reflexivity|reflexivity]. Qed.
  Lemma lookup_remove_other (d : dict) k k' : k <> k' -> lookup k (remove k' d) = lookup k d.
  Proof.
    intros N. induction d as [|[a v] d IH]; [reflexivity|]. cbn. destruct (String.eqb a k') eqn:E.
    - apply String.eqb_eq in E. subst a. rewrite (proj2 (String.eqb_neq k' k)) by congruence. reflexivity.
    - cbn. destruct (String.eqb a k); [reflexivity|exact IH].
  Qed.
  Lemma remove_keys (d : dict) k x : NoDup (map fst d) -> In x (map fst (remove k d)) <-> In x (map fst d) /\ x <> k.
  Proof.
    induction d as [|[a v] d IH]; cbn; intros ND; [tauto|]. inversion ND; subst. destruct (String.eqb a k) eqn:E.
    - apply String.eqb_eq in E. subst a. split.
      + intros I. split; [auto|]. intros ->. contradiction.
      + intros [[->|I] N]; [contradiction|exact I].
    - apply String.eqb_neq in E. cbn. rewrite IH by assumption. split.
      + intros [->|[I N]]; split; auto.
      + intros [[->|I] N]; auto.
  Qed.
  Lemma remove_nodup (d : dict) k : NoDup (map fst d) -> NoDup (map fst (remove k d)).
  Proof.
    induction d as [|[a v] d IH]; cbn; intros ND; [constructor|]. inversion ND; subst. destruct (String.eqb a k); [assumption|]. cbn. constructor; [|apply IH; assumption].
    rewrite remove_keys by assumption. tauto.
  Qed.
  Lemma lookup_set (d : dict) k v k' : lookup k' (set_item k v d) = if String.eqb k k' then Some v else lookup k' d.
  Proof.
    induction d as [|[a w] d IH]; cbn; [reflexivity|]. destruct (String.eqb a k) eqn:E.
    - apply String.eqb_eq in E. subst a. cbn. destruct (String.eqb k k'); reflexivity.
    - cbn. rewrite IH. destruct (String.eqb a k') eqn:F; [|reflexivity]. apply String.eqb_eq in F. subst a.
      rewrite String.eqb_sym, E. reflexivity.
  Qed.
  Lemma set_new (d : dict) k v : ~ In k (map fst d) -> set_item k v d = (d ++ [(k, v)])%list.
  Proof.
    induction d as [|[a w] d IH]; cbn; intros H; [reflexivity|]. rewrite (proj2 (String.eqb_neq a k)) by (intros ->; apply H; auto). rewrite IH; [reflexivity|tauto].
  Qed.
  Lemma remove_length (d : dict) k : In k (map fst d) -> List.length d = S (List.length (remove k d)).
  Proof.
    induction d as [|[a v] d IH]; cbn; intros H; [contradiction|]. destruct (String.eqb a k) eqn:E; [reflexivity|]. cbn. rewrite IH; [reflexivity|].
    destruct H as [->|H]; [rewrite String.eqb_refl in E; discriminate|exact H].
  Qed.
  Lemma translate_spec (tr : list (string * string)) : forall (d : dict),
    NoDup (map fst d) -> NoDup (map fst tr) -> NoDup (map snd tr) ->
    (forall k, In k (map fst tr) -> In k (map fst d)) -> (forall k, In k (map snd tr) -> ~ In k (map fst d)) ->
    exists r, translate tr d = Ok r /\ List.length r = List.length d /\
      (forall k0 k1, In (k0, k1) tr -> lookup k1 r = lookup k0 d) /\
      (forall k, In k (map fst d) -> ~ In k (map fst tr) -> lookup k r = lookup k d) /\
      (forall k, In k (map fst r) -> In k (map snd tr) \/ (In k (map fst d) /\ ~ In k (map fst tr))).
  Proof.
    induction tr as [|[k0 k1] tr IH]; cbn [map fst snd]; intros d ND N0 N1 SUB DIS.
    - exists d. split; [reflexivity|]. split; [reflexivity|]. split; [intros ? ? []|]. split; [reflexivity|]. intros k I. right. auto.
    - inversion N0 as [|? ? NI0 N0']; subst. inversion N1 as [|? ? NI1 N1']; subst.
      assert (I0 : In k0 (map fst d)) by (apply SUB; left; reflexivity). assert (D1 : ~ In k1 (map fst d)) by (apply DIS; left; reflexivity).
      destruct (lookup k0 d) as [v|] eqn:L0; [|apply lookup_none in L0; contradiction].
      set (d1 := set_item k1 v (remove k0 d)).
      assert (NK1 : ~ In k1 (map fst (remove k0 d))) by (rewrite remove_keys by exact ND; tauto).
      assert (E1 : d1 = (remove k0 d ++ [(k1, v)])%list) by (apply set_new, NK1).
      assert (KEYS : forall x, In x (map fst d1) <-> x = k1 \/ (In x (map fst d) /\ x <> k0)).
      { intros x. rewrite E1, map_app, in_app_iff. cbn. rewrite remove_keys by exact ND. split.
        - intros [H|[H|[]]]; auto.
        - intros [->|H]; auto. }
      assert (ND1 : NoDup (map fst d1)).
      { rewrite E1, map_app. apply (Permutation_NoDup (l := k1 :: map fst (remove k0 d))); [cbn; apply Permutation_cons_append|].
        constructor; [exact NK1|apply remove_nodup, ND]. }
      destruct (IH d1 ND1 N0' N1') as (r & TR & LEN & A1 & A2 & A3).
      + intros k I. apply KEYS. right. split; [apply SUB; right; exact I|]. intros ->. contradiction.
      + intros k I. rewrite KEYS. intros [->|[Q _]]; [contradiction|]. apply (DIS k); [right; exact I|exact Q].
      + exists r. split.
        { cbn [translate]. unfold rename1. cbn [fst snd]. rewrite L0. exact TR. }
        split; [rewrite LEN, E1, app_length; cbn; rewrite (remove_length d k0 I0); lia|].
        split; [|split].
        * intros a b [E|I].
          -- injection E as <- <-. assert (B : lookup k1 r = lookup k1 d1).
             { destruct (in_dec string_dec k1 (map fst tr)) as [Q|Q]; [|apply A2; [apply KEYS; auto|exact Q]].
               exfalso. apply D1, SUB. right. exact Q. }
             rewrite B. unfold d1. rewrite lookup_set, String.eqb_refl. symmetry. exact L0.
          -- rewrite (A1 a b I). unfold d1. rewrite lookup_set. assert (NE : k1 <> a).
             { intros <-. apply D1, SUB. right. change k1 with (fst (k1, b)). apply in_map, I. }
             rewrite (proj2 (String.eqb_neq k1 a) NE). apply lookup_remove_other. intros ->. apply NI0. change k0 with (fst (k0, b)). apply in_map, I.
        * intros k I NT. assert (NK0 : k <> k0) by (intros ->; apply NT; left; reflexivity).
          rewrite A2; [|apply KEYS; auto|intros Q; apply NT; right; exact Q]. unfold d1. rewrite lookup_set.
          rewrite (proj2 (String.eqb_neq k1 k)) by (intros <-; contradiction). apply lookup_remove_other, NK0.
        * intros k I. destruct (A3 k I) as [Q|[Q NT]]; [left; right; exact Q|]. apply KEYS in Q. destruct Q as [->|[Q NK0]]; [left; left; reflexivity|].
          right. split; [exact Q|]. intros [->|H]; contradiction.
  Qed.
End Rename.
Theorem C58_renaming_keeps_values :
  forall (V : Type) (tr : list (string * string)) (d : list (string * V)),
  NoDup (map fst d) -> NoDup (map fst tr) -> NoDup (map snd tr) ->
  (forall k, In k (map fst tr) -> In k (map fst d)) -> (forall k, In k (map snd tr) -> ~ In k (map fst d)) ->
  exists r, translate tr d = Ok r /\ List.length r = List.length d /\
    (forall k0 k1, In (k0, k1) tr -> lookup k1 r = lookup k0 d) /\
    (forall k, In k (map fst d) -> ~ In k (map fst tr) -> lookup k r = lookup k d).
Proof.
  intros V tr d H1 H2 H3 H4 H5. destruct (translate_spec tr d H1 H2 H3 H4 H5) as (r & A & B & C & D & _). exists r. auto.
Qed.
Print Assumptions C58_renaming_keeps_values.
(** A TeX name that is another parameter's name makes that parameter disappear. *)
Theorem C58_colliding_names_lose_values_refuted :
  exists (d r : list (string * nat)) tr, NoDup (map fst d) /\ NoDup (map snd tr) /\ translate tr d = Ok r /\ (List.length r < List.length d)%nat.
Proof.
  exists [("mu", 1%nat); ("sigma", 2%nat)], [("sigma", 1%nat)], [("mu", "sigma")]. repeat split; cbn; try lia; repeat constructor; cbn; intuition discriminate.
Qed.
Print Assumptions C58_colliding_names_lose_values_refuted.
(** Text given as a string is not checked at all. *)
Theorem C58_string_not_checked_refuted :
  exists info s out, balanced info /\ add_additional_info info (XStr s) = Ok (out, XStr s) /\ ~ balanced out.
Proof.
  exists "$f$", "$a", "$f$
$a". split; [exists 1%nat; reflexivity|]. split; [reflexivity|]. intros [n H]. cbn in H. lia.
Qed.
Print Assumptions C58_string_not_checked_refuted.
(** A list of texts is: the result is balanced if the annotation was. *)
Theorem C58_list_checked :
  forall info l out x, balanced info -> add_additional_info info (XList l) = Ok (out, x) -> balanced out.
Proof.
  intros info l out x B H. cbn in H. apply bind_ok in H. destruct H as (l' & _ & H). apply bind_ok in H. destruct H as (s & E & H). injection H as <- _.
  destruct (C58_math_escapes (join nl l')) as (K & _). destruct (K s E) as (BS & _ & _). unfold balanced in *.
  rewrite !count_char_app. change (dollars nl) with 0%nat. apply Nat.Even_Even_add; [exact B|exact BS].
Qed.
Print Assumptions C58_list_checked.
(** The annotation of a failed fit: its lines are balanced exactly when the formula is a single line. Several classes report
    several lines (HeavySide, the composites and all hinges). *)
Lemma split_lines_app c a b : split_on c (a ++ String c b) = (split_on c a ++ split_on c b)%list.
Proof.
  induction a as [|x a IH]; cbn [append split_on].
  - rewrite ascii_eqb_refl. reflexivity.
  - destruct (Ascii.eqb c x) eqn:E; [cbn; rewrite IH; reflexivity|]. rewrite IH. destruct (split_on c a) as [|h t] eqn:S.
    + exfalso. revert S. apply split_on_nonempty.
    + reflexivity.
Qed.
Theorem C58_failed_fit_single_line_partial :
  forall tex, dollars tex = 0%nat ->
  (forall line, In line (split_on newline (failed_info tex)) -> balanced line) <-> has_char newline tex = false.
Proof.
  intros tex D. unfold failed_info.
  assert (E : ("$" ++ tex ++ "$" ++ nl ++ nl ++ "Fit Failed")%string = (("$" ++ tex ++ "$") ++ String newline (String newline "Fit Failed"))%string).
  { unfold nl. cbn. f_equal. clear D. induction tex as [|c r IH]; [reflexivity|]. cbn in *. rewrite IH. reflexivity. }
  rewrite E, split_lines_app. split.
  - intros H. destruct (has_char newline tex) eqn:N; [|reflexivity]. exfalso.
    assert (F : exists h t, split_on newline tex = h :: t /\ t <> []).
    { pose proof (proj1 (split_on_has newline tex) N) as L. destruct (split_on newline tex) as [|h t]; [cbn in L; lia|]. exists h, t. split; [reflexivity|]. destruct t; [cbn in L; lia|discriminate]. }
    destruct F as (h & t & S & NT).
    assert (I : In ("$" ++ h) (split_on newline ("$" ++ tex ++ "$"))).
    { assert (J : tex = h ++ String newline (join nl t)).
      { rewrite <- (join_split newline tex), S. destruct t; [contradiction|]. reflexivity. }
      rewrite J. assert (R : ("$" ++ (h ++ String newline (join nl t)) ++ "$")%string = (("$" ++ h) ++ String newline (join nl t ++ "$"))%string).
      { cbn. f_equal. clear. induction h as [|c h IH]; [reflexivity|]. cbn in *. rewrite IH. reflexivity. }
      rewrite R, split_lines_app. apply in_or_app. left.
      rewrite split_on_nochar; [left; reflexivity|]. cbn. apply (split_on_free newline tex). rewrite S. left. reflexivity. }
    assert (DH : dollars h = 0%nat).
    { rewrite <- (join_split newline tex), S in D. destruct t; [contradiction|]. cbn [join] in D. rewrite count_char_app in D. lia. }
    specialize (H ("$" ++ h) (in_or_app _ _ _ (or_introl I))). destruct H as [n H]. cbn in H. rewrite DH in H. lia.
  - intros N line I. apply in_app_or in I. destruct I as [I|I].
    + rewrite split_on_nochar in I. { destruct I as [<-|[]]. exists 1%nat. rewrite dollars_wrap, D. reflexivity. }
      rewrite !has_char_app, N. reflexivity.
    + destruct I as [<-|[<-|[]]]; exists 0%nat; reflexivity.
Qed.
Print Assumptions C58_failed_fit_single_line_partial.
Theorem C58_failed_multi_line_refuted :
  exists line, In line (split_on newline (failed_info ("f(x)=\min(y_1, \, y_2)" ++ nl ++ "y_i = m_i(x-x_i)"))) /\ ~ balanced line.
Proof.
  exists "$f(x)=\min(y_1, \, y_2)". split; [left; reflexivity|]. intros [n H]. cbn in H. lia.
Qed.
Print Assumptions C58_failed_multi_line_refuted.
Example C58_ex : NoDup (map fst [("mu", "1"); ("A", "2")]) /\ NoDup (map snd [("mu", "\mu")]) /\ ~ In "\mu" (map fst [("mu", "1"); ("A", "2")]) /\
  translate [("mu", "\mu")] [("mu", "1"); ("A", "2")] = Ok [("A", "2"); ("\mu", "1")].
Proof. repeat split; try (repeat constructor; cbn; intuition discriminate); reflexivity. Qed.

(* ================================================================ C59 *)
(** What str shows over a history: the text made from the content at the time of the last build_info, or of the first str if
    none was called. *)
Fixpoint shown {C} (render : C -> string) (ops : list (tex_op (C := C))) (c : C) (cache : option string) : string :=
  match ops with
  | [] => match cache with Some s => s | None => render c end
  | TSet c' :: r => shown render r c' cache
  | TBuild :: r => shown render r c (Some (render c))
  | TStr :: r => shown render r c (Some (match cache with Some s => s | None => render c end))
  end.
Theorem C59_shown_is_last_built :
  forall (C : Type) (render : C -> string) ops c,
  snd (tex_step render (tex_run render ops (new_tex c)) TStr) = Some (shown render ops c None).
Proof.
  intros C render ops c. unfold tex_run, new_tex. generalize (@None string) as cache. revert c.
  induction ops as [|op ops IH]; intros c cache; cbn [fold_left shown].
  - destruct cache; reflexivity.
  - destruct op; cbn [tex_step fst x_content x_cache]; [apply IH|apply IH|]. destruct cache; cbn [fst]; apply IH.
Qed.
Print Assumptions C59_shown_is_last_built.
(** So it is current whenever build_info was called after the last setter, or the annotation was never produced before. *)
Definition setters_only {C} (ops : list (tex_op (C := C))) : Prop := forall op, In op ops -> exists c, op = TSet c.
Definition last_content {C} (ops : list (tex_op (C := C))) (c : C) : C := fold_left (fun c op => match op with TSet c' => c' | _ => c end) ops c.
Theorem C59_current_if_rebuilt_partial :
  forall (C : Type) (render : C -> string) ops c,
  (setters_only ops -> shown render ops c None = render (last_content ops c)) /\
  shown render (ops ++ [TBuild])%list c None = render (last_content ops c).
Proof.
  intros C render ops c. split.
  - revert c. induction ops as [|op ops IH]; intros c S; [reflexivity|]. destruct (S op (or_introl eq_refl)) as [c' ->]. cbn. apply IH. intros o Ho. apply S. right. exact Ho.
  - generalize (@None string) as cache. revert c. induction ops as [|op ops IH]; intros c cache; [reflexivity|]. destruct op; cbn; apply IH.
Qed.
Print Assumptions C59_current_if_rebuilt_partial.
(** But not otherwise: once shown, the text stays whatever is set afterwards. *)
Theorem C59_setters_do_not_show_refuted :
  forall (C : Type) (render : C -> string) c c', render c <> render c' ->
  exists s, snd (tex_step render (tex_run render [TStr; TSet c'] (new_tex c)) TStr) = Some s /\ s <> render c'.
Proof. intros C render c c' N. exists (render c). split; [reflexivity|exact N]. Qed.
Print Assumptions C59_setters_do_not_show_refuted.

(* ================================================================ C105 *)
(** The last printed digit of the value stands where the uncertainty has its leading digit, exactly if the uncertainty is
    not larger (in its exponent) than the value. *)
Theorem C105_digits_partial :
  forall v u, (u <= v)%Z <-> (v - value_digits v (Some u) = u)%Z.
Proof. intros v u. unfold value_digits. lia. Qed.
Print Assumptions C105_digits_partial.
(** A value smaller than its uncertainty is printed with digits far below it. *)
Theorem C105_insignificant_digits_refuted :
  forall v u, (v < u)%Z -> (v - value_digits v (Some u) < u)%Z /\ (1 <= value_digits v (Some u))%Z.
Proof. intros v u H. unfold value_digits. lia. Qed.
Print Assumptions C105_insignificant_digits_refuted.

(* ================================================================ C106 *)
(** build_info changes the list it is given: every element without math comes back wrapped. *)
Theorem C106_argument_changed_refuted :
  exists info l out l', add_additional_info info (XList l) = Ok (out, XList l') /\ l' <> l.
Proof. exists "$f$", ["abc"]. eexists _, _. split; [reflexivity|discriminate]. Qed.
Print Assumptions C106_argument_changed_refuted.
(** At least a second use of the changed list gives the same annotation. *)
Theorem C106_second_use_same_partial :
  forall info l out l', add_additional_info info (XList l) = Ok (out, XList l') ->
  List.length l' = List.length l /\ add_additional_info info (XList l') = Ok (out, XList l').
Proof.
  intros info l out l' H. cbn in H. apply bind_ok in H. destruct H as (l1 & M & H). apply bind_ok in H. destruct H as (s & E & H). injection H as <- <-.
  assert (I : mapM check_math l1 = Ok l1 /\ List.length l1 = List.length l).
  { apply mapM_ok in M. clear E. induction M as [|x y l l' H _ [IH1 IH2]]; [split; reflexivity|].
    cbn. destruct (C58_math_escapes x) as (_ & _ & K). rewrite (K y H). cbn. rewrite IH1. cbn. split; [reflexivity|lia]. }
  destruct I as [I L]. split; [exact L|]. cbn. rewrite I. cbn. rewrite E. reflexivity.
Qed.
Print Assumptions C106_second_use_same_partial.

(* ================================================================ C107 *)
Lemma prefixb_app a b : prefixb a (a ++ b) = true.
Proof. induction a as [|c a IH]; [reflexivity|]. cbn. rewrite ascii_eqb_refl. exact IH. Qed.
Lemma prefixb_app_l a u t : prefixb a u = true -> prefixb a (u ++ t) = true.
Proof.
  revert u. induction a as [|x a IH]; intros [|y u] H; try discriminate; try (destruct t; reflexivity); try reflexivity.
  cbn in *. apply andb_true_iff in H. destruct H as [H1 H2]. rewrite H1. apply IH, H2.
Qed.
Lemma contains_app_l a s t : contains a s = true -> contains a (s ++ t) = true.
Proof.
  induction s as [|c s IH].
  - cbn. rewrite orb_false_r. destruct a; [|discriminate]. destruct t; reflexivity.
  - cbn [contains append]. rewrite !orb_true_iff. intros [H|H]; [left|right; apply IH, H].
    apply (prefixb_app_l a (String c s) t), H.
Qed.
Lemma contains_app_r a s t : contains a t = true -> contains a (s ++ t) = true.
Proof. intros H. induction s as [|c s IH]; [exact H|]. cbn [contains append]. rewrite IH. apply orb_true_r. Qed.
Lemma contains_self a : contains a a = true.
Proof.
  assert (P : prefixb a a = true) by (induction a as [|c a IH]; [reflexivity|]; cbn; rewrite ascii_eqb_refl; exact IH).
  destruct a; [reflexivity|]. cbn [contains]. rewrite P. reflexivity.
Qed.
Lemma contains_join a sep l x : In x l -> contains a x = true -> contains a (join sep l) = true.
Proof.
  intros I C. induction l as [|y l IH]; [contradiction|]. destruct l as [|z l].
  - destruct I as [->|[]]. exact C.
  - change (join sep (y :: z :: l)) with (y ++ sep ++ join sep (z :: l)). destruct I as [->|I].
    + apply contains_app_l, C.
    + apply contains_app_r, contains_app_r, IH, I.
Qed.
(** A first translation is accepted exactly if every name in it is a parameter. *)
Theorem C107_first_names_partial :
  forall popt guess new, (forall rows, guess = Some rows -> map fst rows = popt) ->
  (set_argnames popt guess [] new = Ok new <-> forall k v, In (k, v) new -> In k popt) /\
  (set_argnames popt guess [] new = Ok new \/ set_argnames popt guess [] new = Err ValueError).
Proof.
  intros popt guess new G.
  assert (K : exists b, argnames_accepted popt guess [] new = Ok b /\ (b = true <-> forall k v, In (k, v) new -> In k popt)).
  { unfold argnames_accepted. destruct guess as [rows|]; cbn [translate rmap bind].
    - eexists. split; [reflexivity|]. rewrite forallb_forall. specialize (G rows eq_refl). split.
      + intros H k v I. specialize (H _ I). cbn [fst] in H. apply andb_true_iff in H. apply mem_str_In, H.
      + intros H [k v] I. specialize (H k v I). cbn [fst]. rewrite (proj2 (mem_str_In k popt) H). cbn [andb].
        rewrite <- G in H. apply in_map_iff in H. destruct H as (r & <- & R).
        apply (contains_join _ _ _ ("$" ++ fst r ++ "$" ++ snd r)); [apply (in_map (fun r => "$" ++ fst r ++ "$" ++ snd r)), R|].
        apply contains_app_r, contains_app_l, contains_self.
    - eexists. split; [reflexivity|]. rewrite forallb_forall. split.
      + intros H k v I. specialize (H _ I). cbn [fst] in H. rewrite andb_true_r in H. apply mem_str_In, H.
      + intros H [k v] I. cbn [fst]. rewrite andb_true_r. apply mem_str_In, (H k v I). }
  destruct K as (b & E & B). unfold set_argnames. rewrite E. cbn [bind]. destruct b.
  - split; [|auto]. split; [intros _; apply B; reflexivity|reflexivity].
  - split; [|auto]. split; [discriminate|]. intros H. apply B in H. discriminate.
Qed.
Print Assumptions C107_first_names_partial.
(** The same names again may be refused: they are looked for in the text of the table made with the old translation. *)
Theorem C107_names_again_refuted :
  exists popt rows new, map fst rows = popt /\ set_argnames popt (Some rows) [] new = Ok new /\
    set_argnames popt (Some rows) new new = Err ValueError.
Proof. exists ["x0"; "m"], [("x0", " 0.000e+00 1.000e+00 2.000e+00"); ("m", " 1")], [("x0", "x_0")]. repeat split. Qed.
Print Assumptions C107_names_again_refuted.
