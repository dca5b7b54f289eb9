(** C35 (equality), C36 (attribute lookup), C90 (calling a vector). *)
From Coq Require Import List String Bool Arith ZArith Lia Reals.
From Verif Require Import Py PyStr Num ObjProto.
Import ListNotations.
Open Scope string_scope.

Lemma cls_eqb_eq a b : cls_eqb a b = true <-> a = b.
Proof. destruct a, b; simpl; split; congruence. Qed.
Lemma list_eqb_refl {X} (e : X -> X -> bool) l : (forall x, e x x = true) -> list_eqb e l l = true.
Proof. intros H. induction l as [|x l IH]; [reflexivity|]. simpl. rewrite H, IH. reflexivity. Qed.
Lemma list_eqb_sym {X} (e : X -> X -> bool) : (forall x y, e x y = true -> e y x = true) ->
  forall a b, list_eqb e a b = true -> list_eqb e b a = true.
Proof.
  intros H. induction a as [|x a IH]; intros [|y b]; simpl; try congruence.
  rewrite !andb_true_iff. intros [H1 H2]. split; [apply H, H1|apply IH, H2].
Qed.
Lemma list_eqb_trans {X} (e : X -> X -> bool) : (forall x y z, e x y = true -> e y z = true -> e x z = true) ->
  forall a b c, list_eqb e a b = true -> list_eqb e b c = true -> list_eqb e a c = true.
Proof.
  intros H. induction a as [|x a IH]; intros [|y b] [|z c]; simpl; try congruence.
  rewrite !andb_true_iff. intros [H1 H2] [H3 H4]. split; [eapply H; eassumption|eapply IH; eassumption].
Qed.
Lemma xcell_refl (x : XR) : cell_eqb x x = true.
Proof. destruct x; try reflexivity. change (Reqb r r = true). apply Reqb_true. reflexivity. Qed.
Lemma xcell_eq (x y : XR) : cell_eqb x y = true <-> x = y.
Proof.
  split; [|intros ->; apply xcell_refl].
  destruct x, y; try reflexivity; try (intros H; discriminate).
  intros H. change (Reqb r r0 = true) in H. apply Reqb_true in H. congruence.
Qed.
Lemma list_eqb_eq {X} (e : X -> X -> bool) : (forall x y, e x y = true <-> x = y) ->
  forall a b, list_eqb e a b = true <-> a = b.
Proof.
  intros H. induction a as [|x a IH]; intros [|y b]; simpl; split; try congruence.
  - rewrite andb_true_iff, H, IH. intros [-> ->]. reflexivity.
  - intros E. injection E as -> ->. rewrite andb_true_iff, H, IH. auto.
Qed.
Lemma table_equals_eq (a b : table XR) : table_equals a b = true <-> a = b.
Proof.
  unfold table_equals. rewrite !andb_true_iff.
  rewrite (list_eqb_eq _ Z.eqb_eq), (list_eqb_eq _ String.eqb_eq), (list_eqb_eq _ (list_eqb_eq _ xcell_eq)).
  destruct a, b; simpl. split; [intros [[-> ->] ->]; reflexivity|]. intros E; injection E; auto.
Qed.
(** [==] holds exactly for objects of the same class with equal tables (and equal species for ions). *)
Lemma py_eq_iff (a b : obj XR) : (o_id a = o_id b -> a = b) ->
  (py_eq a b = true <-> o_cls a = o_cls b /\ o_data a = o_data b /\ (o_cls a = KIon -> o_species a = o_species b)).
Proof.
  intros HI. unfold py_eq.
  destruct (o_cls a) eqn:CA, (o_cls b) eqn:CB; cbn [subclass cls_eqb orb negb andb];
    unfold eq_method; rewrite CA, CB; cbn [subclass cls_eqb orb negb];
    destruct (Z.eqb_spec (o_id a) (o_id b)) as [E|E];
    try (destruct (Z.eqb_spec (o_id b) (o_id a)) as [E'|E']);
    try (exfalso; congruence);
    try (specialize (HI E); subst b; rewrite CA in CB; discriminate);
    try (split; [discriminate|intros (X & _); discriminate]).
  all: try (specialize (HI E); subst b; split; [intros _; repeat split; intros; congruence|reflexivity]).
  all: try (assert (TE := table_equals_eq (o_data a) (o_data b)); destruct (table_equals (o_data a) (o_data b)) eqn:ET; cbn [of_bool andb];
    [split; [intros _; repeat split; [apply TE; reflexivity|intros; congruence]|reflexivity]
    |split; [discriminate|intros (_ & X & _); apply TE in X; discriminate]]).
  all: assert (TE := table_equals_eq (o_data a) (o_data b)); destruct (String.eqb_spec (o_species a) (o_species b)) as [ES|ES];
    destruct (table_equals (o_data a) (o_data b)) eqn:ET; cbn [of_bool andb].
  all: try (split; [intros _; repeat split; [apply TE; reflexivity|intros; congruence]|reflexivity]).
  all: try (split; [discriminate|intros (_ & X & Y); first [apply TE in X; discriminate|exfalso; apply ES, Y; reflexivity]]).
Qed.

(* ================================================================ C35 *)
(** For objects whose identity determines them: [==] is reflexive, symmetric and transitive (NaN cells
    included), whatever the classes involved. *)
Theorem C35_equality_is_equivalence :
  forall (world : list (obj XR)), (forall a b, In a world -> In b world -> o_id a = o_id b -> a = b) ->
  forall a b c, In a world -> In b world -> In c world ->
  py_eq a a = true /\ (py_eq a b = py_eq b a) /\
  (py_eq a b = true -> py_eq b c = true -> py_eq a c = true) /\
  (py_eq a b = true -> o_cls a = o_cls b).
Proof.
  intros world HW a b c Ha Hb Hc.
  assert (EQ : forall x y, In x world -> In y world ->
    (py_eq x y = true <-> o_cls x = o_cls y /\ o_data x = o_data y /\ (o_cls x = KIon -> o_species x = o_species y))).
  { intros x y Hx Hy. apply py_eq_iff. auto. }
  split; [apply EQ; auto|]. split.
  - apply eq_true_iff_eq. rewrite !EQ by assumption. split; intros (H1 & H2 & H3); repeat split; try congruence;
      intros HK; symmetry; apply H3; congruence.
  - split.
    + rewrite !EQ by assumption. intros (H1 & H2 & H3) (H4 & H5 & H6). repeat split; try congruence.
      intros HK. rewrite (H3 HK). apply H6. congruence.
    + rewrite EQ by assumption. tauto.
Qed.
Print Assumptions C35_equality_is_equivalence.
Example C35_ex : exists world : list (obj XR), List.length world = 3%nat /\
  (forall a b, In a world -> In b world -> o_id a = o_id b -> a = b) /\
  exists a b, In a world /\ In b world /\ o_id a <> o_id b /\ o_cls a = KBField.
Proof.
  exists [mkObj 1 KBField "" (mkTable [1%Z] ["x"] [[NaN]]); mkObj 2 KVector "" (mkTable [1%Z] ["x"] [[NaN]]);
          mkObj 3 KIon "p1" (mkTable [1%Z] ["x"] [[Fin 2]])].
  split; [reflexivity|]. split.
  - simpl. intros a b [<-|[<-|[<-|[]]]] [<-|[<-|[<-|[]]]]; simpl; congruence.
  - eexists; eexists. split; [left; reflexivity|]. split; [right; left; reflexivity|]. split; [discriminate|reflexivity].
Qed.

(* ================================================================ C36 *)
(** On an initialised plasma every look-up ends, at nesting depth 2: the class or instance attribute, the
    ion of that name, or AttributeError. *)
Theorem C36_initialised_lookup_partial :
  forall (o : pobj) l name depth, a_ions o = Some l -> (2 <= depth)%nat ->
  name <> "ions" -> name <> "_ions" ->
  getattr depth o name =
    if mem_str name (a_class o) || mem_str name (a_dict o) then Ok (VAttr name)
    else if mem_str name l then Ok (VIonObj name) else Err AttributeError.
Proof.
  intros o l name depth HI HD N1 N2. destruct depth as [|[|d]]; [lia|lia|].
  cbn [getattr]. apply String.eqb_neq in N1, N2. rewrite N1, N2, HI.
  change (String.eqb "ions" "ions") with true. cbv iota. reflexivity.
Qed.
Print Assumptions C36_initialised_lookup_partial.
(** Before initialisation (the state in which copy and pickle probe an object) every look-up of a name the
    class does not define exhausts the stack, whatever its size. *)
Theorem C36_uninitialised_lookup_refuted :
  forall (o : pobj) name depth, a_ions o = None -> ~ In name (a_class o) -> ~ In name (a_dict o) ->
  getattr depth o name = Err RecursionError.
Proof.
  intros o name depth HI HC HD.
  assert (G : forall d, getattr d o "ions" = Err RecursionError /\ getattr d o "_ions" = Err RecursionError).
  { induction d as [|d [IH1 IH2]]; [split; reflexivity|]. cbn [getattr].
    change (String.eqb "ions" "ions") with true. change (String.eqb "_ions" "ions") with false.
    change (String.eqb "_ions" "_ions") with true. cbv iota. rewrite HI, IH1, IH2. split; reflexivity. }
  destruct (String.eqb_spec name "ions") as [->|N1]; [apply G|].
  destruct (String.eqb_spec name "_ions") as [->|N2]; [apply G|].
  destruct depth as [|d]; [reflexivity|]. cbn [getattr].
  apply String.eqb_neq in N1, N2. rewrite N1, N2.
  apply mem_str_not in HC, HD. rewrite HC, HD. cbn [orb]. rewrite (proj1 (G d)). reflexivity.
Qed.
Print Assumptions C36_uninitialised_lookup_refuted.
(** In particular what [copy.copy] asks of the new object before filling it. *)
Example C36_ex : getattr 1000 (mkPobj ["save"; "__reduce_ex__"] [] None) "__setstate__" = Err RecursionError.
Proof. vm_compute. reflexivity. Qed.

(* ================================================================ C90 *)
(** Calling a vector with a component name raises AttributeError for every vector and every name, so it
    never returns the component. *)
Theorem C90_vector_call_refuted :
  forall (T : Type) (cell : string -> option T) component, vector_call cell component = Err AttributeError.
Proof. intros T cell component. reflexivity. Qed.
Print Assumptions C90_vector_call_refuted.
