(** C242 (hatching the boxes without data). *)
From Coq Require Import List String Bool Arith ZArith Reals Lra Lia.
From Verif Require Import Py PyStr Num Sort Hist HistThms FitCoreThms FitFuncsThms Select SelectThms SelectHatch.
Import ListNotations.
Open Scope list_scope.
Open Scope R_scope.

(** the points a rectangle covers: from its corner to its width and height further on *)
Definition covers (r : rectangle (T := XR)) (x y : R) : Prop :=
  exists a b w h, r = mkRect (Fin a) (Fin b) (Fin w) (Fin h) /\ a <= x <= a + w /\ b <= y <= b + h.

Lemma rect_fin b : rect_of (fin_box b) = mkRect (T := XR) (Fin (x0 b)) (Fin (y0 b)) (Fin (x1 b - x0 b)) (Fin (y1 b - y0 b)).
Proof. unfold rect_of, fin_box. cbn [b_x0 b_x1 b_y0 b_y1]. rewrite !fin_sub. reflexivity. Qed.
(** A hatched rectangle covers exactly the box drawn. *)
Theorem C242_covers_the_box : forall b x y, covers (rect_of (fin_box b)) x y <-> x0 b <= x <= x1 b /\ y0 b <= y <= y1 b.
Proof.
  intros b x y. rewrite rect_fin. unfold covers. split.
  - intros (a & c & w & h & E & X & Y). injection E as <- <- <- <-. lra.
  - intros [X Y]. exists (x0 b), (y0 b), (x1 b - x0 b), (y1 b - y0 b). split; [reflexivity|]. lra.
Qed.

Section Hatched.
  Variables (pick : sampler) (lx ly : bool) (data : list rrow) (boxes : list rbox) (others : option (list (option (list Z)))) (n : nat) (s : sampled (T := XR)).
  Hypothesis F : fair pick.
  Hypothesis N : NoDup (map fst data).
  Hypothesis D : forall b, In b boxes -> drawable lx ly b.
  Hypothesis P : all_present data others.
  Hypothesis H : sample pick lx ly data boxes others n = Ok s.

  Lemma bare_dec b : In b boxes -> (boxed lx ly data others b = [] <-> forall d, In d data -> inside lx ly b d -> taken others (fst d)).
  Proof.
    intro I.
    assert (DEC : forall i, {taken others i} + {~ taken others i}).
    { intro i. destruct others as [l|]; [|right; intros []]. destruct (in_dec Z.eq_dec i (flat_map (fun o => match o with Some s => s | None => [] end) l)) as [T|T]; [left; apply taken_flat, T|right; intro T2; apply T, taken_flat, T2]. }
    split.
    - intros E d J K. destruct (DEC (fst d)) as [T|T]; [exact T|]. exfalso. assert (Z0 : In (fst d) []) by (rewrite <- E; apply (boxed_in _ _ _ _ _ _ (D b I)); exists d; split; [apply (avail_all _ _ _ P); split; [apply in_map, J|exact T]|auto]). exact Z0.
    - intro G. destruct (boxed lx ly data others b) as [|i r] eqn:E; [reflexivity|]. exfalso. assert (J : In i (boxed lx ly data others b)) by (rewrite E; left; reflexivity).
      apply (boxed_in _ _ _ _ _ _ (D b I)) in J. destruct J as (d & A & B & <- & K). apply (avail_all _ _ _ P) in A as [_ A]. apply A, G; assumption.
  Qed.
  (** Hatched are, in the order they were drawn and each as often, exactly the boxes without data but those selected elsewhere. *)
  Theorem C242_exactly_the_empty_boxes : exists empty : rbox -> bool, hatched s = map (fun b => rect_of (fin_box b)) (filter empty boxes) /\
    forall b, In b boxes -> (empty b = true <-> forall d, In d data -> inside lx ly b d -> taken others (fst d)).
  Proof.
    exists (fun b => match boxed lx ly data others b with [] => true | _ => false end). split.
    - unfold hatched. rewrite sample_eq in H. apply ok_inj in H. rewrite <- H. cbn [s_failed]. rewrite map_map. reflexivity.
    - intros b I. rewrite <- (bare_dec b I). destruct (boxed lx ly data others b); split; congruence.
  Qed.
  (** No datum sampled is shown inside a hatched rectangle, not even when boxes overlap. *)
  Theorem C242_no_sample_in_the_hatching : forall b d, In b boxes -> (forall e, In e data -> inside lx ly b e -> taken others (fst e)) ->
    In d data -> In (fst d) (s_indices s) -> ~ inside lx ly b d.
  Proof.
    intros b d I G J K L. destruct (C153_sampled_data pick lx ly data boxes others n s F N D P H) as [S _]. destruct (S _ K) as [T _]. apply T, G; assumption.
  Qed.
  (** Every box without a hatched rectangle has given at least one datum shown inside it. *)
  Theorem C242_otherwise_sampled : forall b, In b boxes -> (1 <= n)%nat -> ~ In (rect_of (fin_box b)) (hatched s) -> exists d, In d data /\ inside lx ly b d /\ In (fst d) (s_indices s).
  Proof.
    intros b I L NH. destruct (C153_sampled_data pick lx ly data boxes others n s F N D P H) as (_ & FA & S & _).
    assert (NE : boxed lx ly data others b <> []).
    { intro E. apply NH. unfold hatched. apply in_map. apply (FA b I). apply bare_dec; assumption. }
    destruct (boxed lx ly data others b) as [|i r] eqn:E; [congruence|]. assert (J : In i (boxed lx ly data others b)) by (rewrite E; left; reflexivity).
    apply (boxed_in _ _ _ _ _ _ (D b I)) in J. destruct J as (d & A & B & <- & K). apply (avail_all _ _ _ P) in A as [_ A]. destruct (S b d L I B K A) as (e & X & Y & Z). exists e. auto.
  Qed.
End Hatched.
Example C242_case : exists s, sample first_n false false ex_data [mkR 0 2 0 2; mkR 5 6 5 7] None 1 = Ok s /\ hatched s = [mkRect (Fin 5) (Fin 5) (Fin (6 - 5)) (Fin (7 - 5))] /\
  fair first_n /\ all_present ex_data None.
Proof.
  eexists. split; [rewrite sample_eq; reflexivity|]. split; [|split; [exact first_n_fair|intros i []]]. unfold hatched. cbn [s_failed]. 
  assert (DR : forall b, drawable false false b) by (intro b; split; discriminate).
  assert (E : filter (fun b => match boxed false false ex_data None b with [] => true | _ => false end) [mkR 0 2 0 2; mkR 5 6 5 7] = [mkR 5 6 5 7]).
  { cbn [filter]. assert (E1 : In 1%Z (boxed false false ex_data None (mkR 0 2 0 2))) by (apply (boxed_in _ _ _ _ _ _ (DR _)); exists (1%Z, (1, 1)); split; [cbn; auto|]; split; [cbn; auto|]; split; [reflexivity|unfold inside, shown; cbn; lra]).
    destruct (boxed false false ex_data None (mkR 0 2 0 2)) as [|i r]; [destruct E1|].
    assert (E2 : forall i, ~ In i (boxed false false ex_data None (mkR 5 6 5 7))).
    { intros j J. apply (boxed_in _ _ _ _ _ _ (DR _)) in J. destruct J as (d & _ & B & _ & K). cbn in B. destruct B as [<-|[<-|[<-|[]]]]; unfold inside, shown in K; cbn in K; lra. }
    destruct (boxed false false ex_data None (mkR 5 6 5 7)) as [|j t]; [reflexivity|exfalso; apply (E2 j); left; reflexivity]. }
  rewrite E. cbn [map]. rewrite rect_fin. reflexivity.
Qed.
