(** Python strings: the operations the modelled code uses, executable, and their basic laws.
    A Python [str] is modelled by Coq's [string] (a list of bytes); for ASCII text, and for the
    comparison of UTF-8 text, the two agree. *)
From Coq Require Import List String Ascii Bool Arith Lia Permutation Sorted NArith.
Import ListNotations.
Open Scope string_scope.

(** [c in s] for a one-character string [c]. *)
Fixpoint has_char (c : ascii) (s : string) : bool :=
  match s with
  | EmptyString => false
  | String d r => Ascii.eqb c d || has_char c r
  end.

(** [s.count(c)] for a one-character string. *)
Fixpoint count_char (c : ascii) (s : string) : nat :=
  match s with
  | EmptyString => 0
  | String d r => (if Ascii.eqb c d then 1 else 0) + count_char c r
  end.

(** [s.split(c)]: never empty; empty pieces are kept. *)
Fixpoint split_on (c : ascii) (s : string) : list string :=
  match s with
  | EmptyString => [""]
  | String d r =>
      if Ascii.eqb c d then "" :: split_on c r
      else match split_on c r with
           | [] => [String d ""]
           | p :: ps => String d p :: ps
           end
  end.

(** [sep.join(l)]. *)
Fixpoint join (sep : string) (l : list string) : string :=
  match l with
  | [] => ""
  | [x] => x
  | x :: r => x ++ sep ++ join sep r
  end.

(** Code-point order on strings (Python [<=] on [str]). *)
Fixpoint str_leb (a b : string) : bool :=
  match a, b with
  | EmptyString, _ => true
  | String _ _, EmptyString => false
  | String x a', String y b' =>
      if Ascii.eqb x y then str_leb a' b'
      else N.ltb (N_of_ascii x) (N_of_ascii y)
  end.
Definition str_ltb (a b : string) : bool := str_leb a b && negb (String.eqb a b).

(** [sorted(l)] for strings. *)
Fixpoint insert_str (x : string) (l : list string) : list string :=
  match l with
  | [] => [x]
  | y :: r => if str_leb x y then x :: l else y :: insert_str x r
  end.
Fixpoint sort_str (l : list string) : list string :=
  match l with [] => [] | x :: r => insert_str x (sort_str r) end.

Definition mem_str (x : string) (l : list string) : bool := existsb (String.eqb x) l.

(** [np.unique(l)] for strings: sorted, duplicates removed. *)
Fixpoint nodup_str (l : list string) : list string :=
  match l with
  | [] => []
  | x :: r => if mem_str x r then nodup_str r else x :: nodup_str r
  end.
Definition unique_str (l : list string) : list string := sort_str (nodup_str l).

(* ------------------------------------------------------------------ laws *)

Lemma ascii_eqb_refl c : Ascii.eqb c c = true.
Proof. apply Ascii.eqb_eq; reflexivity. Qed.

Lemma mem_str_In x l : mem_str x l = true <-> In x l.
Proof.
  unfold mem_str; rewrite existsb_exists; split.
  - intros [y [Hy H]]; apply String.eqb_eq in H; subst; exact Hy.
  - intros H; exists x; split; [exact H|apply String.eqb_refl].
Qed.

Lemma mem_str_not x l : mem_str x l = false <-> ~ In x l.
Proof.
  rewrite <- mem_str_In; destruct (mem_str x l); split; intros H; congruence.
Qed.

Lemma str_leb_refl a : str_leb a a = true.
Proof. induction a as [|c a IH]; simpl; [reflexivity|]. rewrite ascii_eqb_refl; exact IH. Qed.

Lemma N_of_ascii_inj x y : N_of_ascii x = N_of_ascii y -> x = y.
Proof.
  intros H. rewrite <- (ascii_N_embedding x), <- (ascii_N_embedding y), H. reflexivity.
Qed.

Lemma str_leb_total a : forall b, str_leb a b = true \/ str_leb b a = true.
Proof.
  induction a as [|x a IH]; intros [|y b]; simpl; auto.
  destruct (Ascii.eqb x y) eqn:E.
  - apply Ascii.eqb_eq in E; subst. rewrite ascii_eqb_refl. apply IH.
  - rewrite Ascii.eqb_sym, E. rewrite !N.ltb_lt.
    destruct (N.lt_trichotomy (N_of_ascii x) (N_of_ascii y)) as [H|[H|H]]; auto.
    apply N_of_ascii_inj in H; subst. rewrite ascii_eqb_refl in E; discriminate.
Qed.

Lemma str_leb_antisym a : forall b, str_leb a b = true -> str_leb b a = true -> a = b.
Proof.
  induction a as [|x a IH]; intros [|y b]; simpl; try discriminate; auto.
  destruct (Ascii.eqb x y) eqn:E.
  - apply Ascii.eqb_eq in E; subst. rewrite ascii_eqb_refl. intros H1 H2. f_equal; auto.
  - rewrite Ascii.eqb_sym, E. rewrite !N.ltb_lt. intros; lia.
Qed.

Lemma str_leb_trans a : forall b c, str_leb a b = true -> str_leb b c = true -> str_leb a c = true.
Proof.
  induction a as [|x a IH]; intros [|y b] [|z c]; simpl; try discriminate; auto.
  destruct (Ascii.eqb x y) eqn:E.
  - apply Ascii.eqb_eq in E; subst. destruct (Ascii.eqb y z) eqn:F; [apply IH|auto].
  - destruct (Ascii.eqb y z) eqn:F.
    + apply Ascii.eqb_eq in F; subst. rewrite E. auto.
    + destruct (Ascii.eqb x z) eqn:G.
      * apply Ascii.eqb_eq in G; subst. rewrite !N.ltb_lt; lia.
      * rewrite !N.ltb_lt; lia.
Qed.

Definition str_le a b : Prop := str_leb a b = true.

Lemma insert_perm x l : Permutation (insert_str x l) (x :: l).
Proof.
  induction l as [|y r IH]; simpl; [reflexivity|].
  destruct (str_leb x y); [reflexivity|].
  rewrite IH. apply perm_swap.
Qed.

Lemma sort_perm l : Permutation (sort_str l) l.
Proof.
  induction l as [|x r IH]; simpl; [reflexivity|].
  rewrite insert_perm. constructor; exact IH.
Qed.

Lemma insert_sorted x l : StronglySorted str_le l -> StronglySorted str_le (insert_str x l).
Proof.
  induction 1 as [|y r Hr IH Hall]; simpl; [repeat constructor|].
  destruct (str_leb x y) eqn:E.
  - constructor; [constructor; assumption|]. constructor; [exact E|].
    eapply Forall_impl; [|exact Hall]. intros z Hz; eapply str_leb_trans; eauto.
  - constructor; [exact IH|].
    apply Forall_forall; intros z Hz.
    apply (Permutation_in _ (insert_perm x r)) in Hz as [Hz|Hz].
    + subst. destruct (str_leb_total z y) as [H|H]; [congruence|exact H].
    + rewrite Forall_forall in Hall; auto.
Qed.

Lemma sort_sorted l : StronglySorted str_le (sort_str l).
Proof. induction l as [|x r IH]; simpl; [constructor|]. apply insert_sorted; exact IH. Qed.

Lemma sorted_perm_eq l1 : forall l2,
  StronglySorted str_le l1 -> StronglySorted str_le l2 -> Permutation l1 l2 -> l1 = l2.
Proof.
  induction l1 as [|x l1 IH]; intros l2 H1 H2 HP.
  - apply Permutation_nil in HP; congruence.
  - destruct l2 as [|y l2]; [symmetry in HP; apply Permutation_nil in HP; discriminate|].
    inversion H1 as [|? ? S1 A1]; inversion H2 as [|? ? S2 A2]; subst.
    assert (x = y) as ->.
    { rewrite Forall_forall in A1, A2.
      assert (In x (y :: l2)) as [Hx|Hx] by (eapply Permutation_in; [exact HP|left; reflexivity]).
      - congruence.
      - assert (In y (x :: l1)) as [Hy|Hy]
          by (eapply Permutation_in; [symmetry; exact HP|left; reflexivity]).
        + congruence.
        + apply str_leb_antisym; [apply A1|apply A2]; assumption. }
    f_equal. apply IH; auto. eapply Permutation_cons_inv; exact HP.
Qed.

Lemma sort_perm_invariant l1 l2 : Permutation l1 l2 -> sort_str l1 = sort_str l2.
Proof.
  intros H. apply sorted_perm_eq; try apply sort_sorted.
  rewrite !sort_perm; exact H.
Qed.

Lemma sort_idem l : sort_str (sort_str l) = sort_str l.
Proof. apply sort_perm_invariant, sort_perm. Qed.

Lemma sort_fixed l : StronglySorted str_le l -> sort_str l = l.
Proof. intros H. apply sorted_perm_eq; [apply sort_sorted|exact H|apply sort_perm]. Qed.

Lemma sort_In x l : In x (sort_str l) <-> In x l.
Proof.
  split; apply Permutation_in; [apply sort_perm|symmetry; apply sort_perm].
Qed.

Lemma sort_length l : List.length (sort_str l) = List.length l.
Proof. apply Permutation_length, sort_perm. Qed.

Lemma split_on_nonempty c s : split_on c s <> [].
Proof.
  destruct s as [|d s]; simpl; [discriminate|].
  destruct (Ascii.eqb c d); [discriminate|].
  destruct (split_on c s); discriminate.
Qed.

Lemma split_on_free c s p : In p (split_on c s) -> has_char c p = false.
Proof.
  revert p; induction s as [|d s IH]; simpl; intros p.
  - intros [H|[]]; subst; reflexivity.
  - destruct (Ascii.eqb c d) eqn:E.
    + intros [H|H]; subst; [reflexivity|auto].
    + destruct (split_on c s) as [|q qs] eqn:F.
      * intros [H|[]]; subst; simpl; rewrite E; reflexivity.
      * intros [H|H]; subst; simpl; [rewrite E; simpl; apply IH; left; reflexivity|].
        apply IH; right; exact H.
Qed.

Lemma split_on_nochar c s : has_char c s = false -> split_on c s = [s].
Proof.
  induction s as [|d s IH]; simpl; [reflexivity|].
  rewrite orb_false_iff; intros [H1 H2]. rewrite H1, IH by exact H2. reflexivity.
Qed.

Lemma split_on_app c a s :
  has_char c a = false ->
  split_on c (a ++ String c s) = a :: split_on c s.
Proof.
  induction a as [|d a IH]; simpl.
  - intros _. rewrite ascii_eqb_refl. reflexivity.
  - rewrite orb_false_iff; intros [H1 H2]. rewrite H1, IH by exact H2. reflexivity.
Qed.

Lemma join_split c s : join (String c "") (split_on c s) = s.
Proof.
  induction s as [|d s IH]; simpl; [reflexivity|].
  destruct (Ascii.eqb c d) eqn:E.
  - apply Ascii.eqb_eq in E; subst.
    destruct (split_on d s) as [|p ps] eqn:F; [exfalso; exact (split_on_nonempty _ _ F)|].
    simpl in *. rewrite IH. reflexivity.
  - destruct (split_on c s) as [|p ps] eqn:F; [exfalso; exact (split_on_nonempty _ _ F)|].
    destruct ps as [|q qs]; simpl in *; rewrite <- IH; reflexivity.
Qed.

Lemma split_join c l :
  l <> [] -> (forall p, In p l -> has_char c p = false) ->
  split_on c (join (String c "") l) = l.
Proof.
  induction l as [|x l IH]; intros Hne Hfree; [congruence|].
  destruct l as [|y l].
  - simpl. apply split_on_nochar, Hfree; left; reflexivity.
  - change (join (String c "") (x :: y :: l)) with (x ++ String c (join (String c "") (y :: l))).
    rewrite split_on_app by (apply Hfree; left; reflexivity).
    f_equal. apply IH; [discriminate|]. intros p Hp; apply Hfree; right; exact Hp.
Qed.

Lemma has_char_app c a b : has_char c (a ++ b) = has_char c a || has_char c b.
Proof. induction a as [|d a IH]; simpl; [reflexivity|]. rewrite IH, orb_assoc. reflexivity. Qed.

Lemma split_on_has c s : has_char c s = true <-> (1 < List.length (split_on c s))%nat.
Proof.
  induction s as [|d s IH]; simpl; [split; [discriminate|lia]|].
  destruct (Ascii.eqb c d) eqn:E; simpl.
  - split; [|reflexivity]. intros _.
    pose proof (split_on_nonempty c s). destruct (split_on c s); [congruence|simpl; lia].
  - rewrite IH. destruct (split_on c s) as [|p ps] eqn:F; [exfalso; exact (split_on_nonempty _ _ F)|].
    simpl. reflexivity.
Qed.

Lemma count_split c s : List.length (split_on c s) = S (count_char c s).
Proof.
  induction s as [|d s IH]; simpl; [reflexivity|].
  destruct (Ascii.eqb c d); simpl; [rewrite IH; reflexivity|].
  destruct (split_on c s) as [|p ps] eqn:F; [exfalso; exact (split_on_nonempty _ _ F)|].
  simpl in *. exact IH.
Qed.

Lemma has_count c s : has_char c s = true <-> (0 < count_char c s)%nat.
Proof. rewrite split_on_has, count_split. lia. Qed.

Lemma count_char_app c a b : count_char c (a ++ b) = (count_char c a + count_char c b)%nat.
Proof. induction a as [|d a IH]; simpl; [reflexivity|]. rewrite IH; lia. Qed.

Lemma has_char_join c sep l :
  has_char c sep = false -> has_char c (join sep l) = existsb (has_char c) l.
Proof.
  intros Hs; induction l as [|x l IH]; [reflexivity|].
  destruct l as [|y l].
  - simpl. rewrite orb_false_r. reflexivity.
  - change (join sep (x :: y :: l)) with (x ++ sep ++ join sep (y :: l)).
    rewrite !has_char_app, Hs, IH. reflexivity.
Qed.

Lemma nodup_str_In x l : In x (nodup_str l) <-> In x l.
Proof.
  induction l as [|y l IH]; simpl; [tauto|].
  destruct (mem_str y l) eqn:E.
  - rewrite IH. split; [auto|]. intros [H|H]; [|exact H]. subst. apply mem_str_In; exact E.
  - simpl. rewrite IH. tauto.
Qed.

Lemma nodup_str_NoDup l : NoDup (nodup_str l).
Proof.
  induction l as [|y l IH]; simpl; [constructor|].
  destruct (mem_str y l) eqn:E; [exact IH|].
  constructor; [|exact IH]. rewrite nodup_str_In. apply mem_str_not; exact E.
Qed.

Lemma unique_str_In x l : In x (unique_str l) <-> In x l.
Proof. unfold unique_str. rewrite sort_In, nodup_str_In. reflexivity. Qed.
