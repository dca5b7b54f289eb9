(** Python-level glue: exceptions as values. *)
From Coq Require Import List String Bool.
Import ListNotations.

(** The exception classes the modelled code raises. *)
Inductive exn :=
| TypeError | ValueError | KeyError | AssertionError | NotImplementedError
| AttributeError | UnboundLocalError | RecursionError | IndexError
| ZeroDivisionError | InsufficientDataError | FitFailedError | RuntimeError
| FileNotFoundError | NameError | InvalidParameterError | NotADirectoryError.

(** A call either returns or raises. *)
Inductive result (A : Type) : Type :=
| Ok (a : A)
| Err (e : exn).
Arguments Ok {A} a.
Arguments Err {A} e.

Definition bind {A B} (m : result A) (k : A -> result B) : result B :=
  match m with Ok a => k a | Err e => Err e end.
Definition rmap {A B} (f : A -> B) (m : result A) : result B :=
  match m with Ok a => Ok (f a) | Err e => Err e end.
Definition is_ok {A} (m : result A) : bool := match m with Ok _ => true | Err _ => false end.

Declare Scope py_scope.
Delimit Scope py_scope with py.
Notation "x <- m ;; k" := (bind m (fun x => k))
  (at level 61, m at next level, right associativity) : py_scope.
Notation "'assert' b ;; k" := (if b then k else Err AssertionError)
  (at level 61, b at next level, right associativity) : py_scope.
Open Scope py_scope.

Lemma bind_ok {A B} (m : result A) (k : A -> result B) b :
  bind m k = Ok b <-> exists a, m = Ok a /\ k a = Ok b.
Proof.
  destruct m as [a|e]; simpl; split.
  - intros H; exists a; auto.
  - intros [a' [Ha H]]; inversion Ha; subst; exact H.
  - discriminate.
  - intros [a' [Ha _]]; discriminate.
Qed.

Lemma rmap_ok {A B} (f : A -> B) (m : result A) b :
  rmap f m = Ok b <-> exists a, m = Ok a /\ b = f a.
Proof.
  destruct m as [a|e]; simpl; split.
  - intros H; inversion H; exists a; auto.
  - intros [a' [Ha H]]; inversion Ha; subst; reflexivity.
  - discriminate.
  - intros [a' [Ha _]]; discriminate.
Qed.

(** Run a fallible function over a list, stopping at the first exception
    (a Python list/dict comprehension whose body may raise). *)
Fixpoint mapM {A B} (f : A -> result B) (l : list A) : result (list B) :=
  match l with
  | [] => Ok []
  | x :: r => y <- f x ;; ys <- mapM f r ;; Ok (y :: ys)
  end.

Lemma mapM_ok {A B} (f : A -> result B) l ys :
  mapM f l = Ok ys <-> Forall2 (fun x y => f x = Ok y) l ys.
Proof.
  revert ys; induction l as [|x l IH]; intros ys; simpl.
  - split; intros H; inversion H; subst; auto.
  - rewrite bind_ok; split.
    + intros [y [Hy H]]. apply bind_ok in H as [ys' [H1 H2]].
      inversion H2; subst. constructor; [exact Hy|apply IH; exact H1].
    + intros H; inversion H as [|? y ? ys' Hy Hr]; subst.
      exists y; split; [exact Hy|]. apply bind_ok. exists ys'; split; [apply IH; exact Hr|reflexivity].
Qed.

Lemma mapM_ext {A B} (f g : A -> result B) l :
  (forall x, In x l -> f x = g x) -> mapM f l = mapM g l.
Proof.
  induction l as [|x l IH]; intros H; simpl; [reflexivity|].
  rewrite (H x (or_introl eq_refl)), IH; [reflexivity|].
  intros y Hy; apply H; right; exact Hy.
Qed.

Lemma mapM_pure {A B} (f : A -> B) l : mapM (fun x => Ok (f x)) l = Ok (map f l).
Proof. induction l as [|x l IH]; simpl; [reflexivity|]. rewrite IH; reflexivity. Qed.
