(** Stable insertion sort over a boolean order, used for the index sorts and [sorted] calls of the model. *)
From Coq Require Import List Bool Permutation Sorted.
Import ListNotations.

Section Sort.
  Context {A : Type} (leb : A -> A -> bool).

  Fixpoint insert_by (x : A) (l : list A) : list A :=
    match l with
    | [] => [x]
    | y :: r => if leb x y then x :: l else y :: insert_by x r
    end.
  Fixpoint sort_by (l : list A) : list A :=
    match l with [] => [] | x :: r => insert_by x (sort_by r) end.

  Definition leP (a b : A) : Prop := leb a b = true.

  Lemma insert_by_perm x l : Permutation (insert_by x l) (x :: l).
  Proof.
    induction l as [|y l IH]; simpl; [apply Permutation_refl|].
    destruct (leb x y); [apply Permutation_refl|].
    eapply perm_trans; [apply perm_skip, IH|apply perm_swap].
  Qed.
  Lemma sort_by_perm l : Permutation (sort_by l) l.
  Proof.
    induction l as [|x l IH]; simpl; [apply perm_nil|].
    eapply perm_trans; [apply insert_by_perm|apply perm_skip, IH].
  Qed.
  Lemma sort_by_In x l : In x (sort_by l) <-> In x l.
  Proof.
    split; apply Permutation_in; [apply sort_by_perm|apply Permutation_sym, sort_by_perm].
  Qed.
  Lemma sort_by_length l : length (sort_by l) = length l.
  Proof. apply Permutation_length, sort_by_perm. Qed.
  Lemma sort_by_NoDup l : NoDup l -> NoDup (sort_by l).
  Proof. apply Permutation_NoDup, Permutation_sym, sort_by_perm. Qed.

  Hypothesis total : forall a b, leb a b = true \/ leb b a = true.
  Hypothesis trans : forall a b c, leb a b = true -> leb b c = true -> leb a c = true.

  Lemma insert_by_sorted x l : StronglySorted leP l -> StronglySorted leP (insert_by x l).
  Proof.
    induction l as [|y l IH]; simpl; intros H.
    - constructor; [constructor|constructor].
    - inversion H as [|? ? Hs Hf]; subst.
      destruct (leb x y) eqn:E.
      + constructor; [exact H|]. constructor; [exact E|].
        eapply Forall_impl; [|exact Hf]. intros z Hz. exact (trans _ _ _ E Hz).
      + constructor; [apply IH, Hs|].
        assert (Hyx : leb y x = true) by (destruct (total x y); congruence).
        apply Forall_forall. intros z Hz.
        apply (Permutation_in _ (insert_by_perm x l)) in Hz. destruct Hz as [<-|Hz]; [exact Hyx|].
        rewrite Forall_forall in Hf. apply Hf, Hz.
  Qed.
  Lemma sort_by_sorted l : StronglySorted leP (sort_by l).
  Proof. induction l as [|x l IH]; simpl; [constructor|apply insert_by_sorted, IH]. Qed.

  (** Sorted lists with the same elements coincide (antisymmetric order). *)
  Hypothesis antisym : forall a b, leb a b = true -> leb b a = true -> a = b.
  Lemma sorted_perm_unique l1 : forall l2,
    StronglySorted leP l1 -> StronglySorted leP l2 -> Permutation l1 l2 -> l1 = l2.
  Proof.
    induction l1 as [|x l1 IH]; intros l2 H1 H2 HP.
    - apply Permutation_nil in HP; subst; reflexivity.
    - destruct l2 as [|y l2]; [apply Permutation_sym, Permutation_nil in HP; discriminate|].
      inversion H1 as [|? ? Hs1 Hf1]; inversion H2 as [|? ? Hs2 Hf2]; subst.
      assert (x = y).
      { rewrite Forall_forall in Hf1, Hf2.
        assert (Hx : In x (y :: l2)) by (apply (Permutation_in _ HP); left; reflexivity).
        assert (Hy : In y (x :: l1)) by (apply (Permutation_in _ (Permutation_sym HP)); left; reflexivity).
        destruct Hx as [E|Hx]; [symmetry; exact E|].
        destruct Hy as [E|Hy]; [exact E|].
        apply antisym; [apply Hf1, Hy|apply Hf2, Hx]. }
      subst y. f_equal. apply IH; auto. eapply Permutation_cons_inv; exact HP.
  Qed.
  Lemma sort_by_invariant l1 l2 : Permutation l1 l2 -> sort_by l1 = sort_by l2.
  Proof.
    intros HP. apply sorted_perm_unique; try apply sort_by_sorted.
    eapply perm_trans; [apply sort_by_perm|]. eapply perm_trans; [exact HP|].
    apply Permutation_sym, sort_by_perm.
  Qed.
  Lemma sort_by_fixed l : StronglySorted leP l -> sort_by l = l.
  Proof.
    intros H. apply sorted_perm_unique; [apply sort_by_sorted|exact H|apply sort_by_perm].
  Qed.
End Sort.

(** A sorted list without repetitions is determined by its set of elements. *)
Lemma sorted_set_eq {A} (leb : A -> A -> bool)
  (antisym : forall a b, leb a b = true -> leb b a = true -> a = b) l1 l2 :
  StronglySorted (leP leb) l1 -> StronglySorted (leP leb) l2 -> NoDup l1 -> NoDup l2 ->
  (forall x, In x l1 <-> In x l2) -> l1 = l2.
Proof.
  intros H1 H2 N1 N2 HI. apply (sorted_perm_unique leb antisym); auto.
  apply NoDup_Permutation; auto.
Qed.
