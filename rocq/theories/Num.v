(** Numbers. The model's numeric functions are written once over the class [Arith];
    [XR] (this file) gives it exact real arithmetic extended with NaN and infinities, following the
    IEEE 754 rules for the special values; [NumB64.v] gives IEEE binary64 through Flocq.
    Simplification in [XR]: no rounding and no negative zero (x/0 has the sign of x). *)
From Coq Require Import Reals Lra List Bool ZArith.
Import ListNotations.
Open Scope R_scope.

Class Arith (T : Type) := {
  aofQ : Z -> positive -> T;      (* a decimal literal n/d *)
  anan : T;
  aadd : T -> T -> T;
  asub : T -> T -> T;
  amul : T -> T -> T;
  adiv : T -> T -> T;
  asqrt : T -> T;
  aopp : T -> T;
  aabs : T -> T;
  altb : T -> T -> bool;          (* IEEE <, false on NaN *)
  aleb : T -> T -> bool;          (* IEEE <=, false on NaN *)
  aeqb : T -> T -> bool;          (* IEEE ==, false on NaN *)
  aisnan : T -> bool;
  aisfin : T -> bool;             (* np.isfinite *)
}.

Declare Scope num_scope.
Delimit Scope num_scope with num.
Infix "+" := aadd : num_scope.
Infix "-" := asub : num_scope.
Infix "*" := amul : num_scope.
Infix "/" := adiv : num_scope.
Notation "- x" := (aopp x) : num_scope.

Section Derived.
  Context {T : Type} {A : Arith T}.
  Local Open Scope num_scope.
  Definition aofZ (z : Z) : T := aofQ z 1.
  Definition a0 : T := aofZ 0.
  Definition a1 : T := aofZ 1.
  Definition a2 : T := aofZ 2.
  Definition asq (x : T) : T := x * x.                       (* .pow(2) *)
  Definition acube (x : T) : T := (x * x) * x.               (* .pow(3) *)
  Definition ainv (x : T) : T := a1 / x.                     (* .pow(-1) *)
  Definition agtb (x y : T) : bool := altb y x.
  Definition ageb (x y : T) : bool := aleb y x.
  (** pandas [sum(skipna=True, min_count=0)]: NaN entries are ignored, the empty sum is 0. *)
  Definition sum_skip (l : list T) : T :=
    fold_left (fun acc x => if aisnan x then acc else acc + x) l a0.
  (** pandas [sum(skipna=False)] / numpy [sum]. *)
  Definition sum_strict (l : list T) : T := fold_left aadd l a0.
  (** pandas [product(skipna=True)]: NaN entries are ignored, the empty product is 1. *)
  Definition prod_skip (l : list T) : T :=
    fold_left (fun acc x => if aisnan x then acc else acc * x) l a1.
  Definition prod_strict (l : list T) : T := fold_left amul l a1.
End Derived.

(** Transcendental functions, only given on [XR]. *)
Class Transc (T : Type) := {
  tln : T -> T;
  texp : T -> T;
  tpow : T -> T -> T;              (* x ** y *)
  tatan2 : T -> T -> T;
  ttan : T -> T;
  tatan : T -> T;
  tpi : T;
}.

(* ------------------------------------------------------------------ XR *)
Inductive XR := Fin (r : R) | PInf | MInf | NaN.

Definition Rltb (x y : R) : bool := if Rlt_dec x y then true else false.
Definition Rleb (x y : R) : bool := if Rle_dec x y then true else false.
Definition Reqb (x y : R) : bool := if Req_EM_T x y then true else false.

Definition xopp (x : XR) : XR :=
  match x with Fin a => Fin (- a) | PInf => MInf | MInf => PInf | NaN => NaN end.
Definition xadd (x y : XR) : XR :=
  match x, y with
  | NaN, _ | _, NaN => NaN
  | Fin a, Fin b => Fin (a + b)
  | PInf, MInf | MInf, PInf => NaN
  | PInf, _ | _, PInf => PInf
  | MInf, _ | _, MInf => MInf
  end.
Definition xsub (x y : XR) : XR := xadd x (xopp y).
(** infinity of the sign of [a], NaN for 0 *)
Definition inf_sign (a : R) : XR :=
  if Rltb 0 a then PInf else if Rltb a 0 then MInf else NaN.
Definition xmul (x y : XR) : XR :=
  match x, y with
  | NaN, _ | _, NaN => NaN
  | Fin a, Fin b => Fin (a * b)
  | Fin a, PInf | PInf, Fin a => inf_sign a
  | Fin a, MInf | MInf, Fin a => xopp (inf_sign a)
  | PInf, PInf | MInf, MInf => PInf
  | PInf, MInf | MInf, PInf => MInf
  end.
Definition xdiv (x y : XR) : XR :=
  match x, y with
  | NaN, _ | _, NaN => NaN
  | Fin a, Fin b => if Reqb b 0 then inf_sign a else Fin (a / b)
  | Fin _, PInf | Fin _, MInf => Fin 0
  | PInf, Fin b => if Rltb b 0 then MInf else PInf
  | MInf, Fin b => if Rltb b 0 then PInf else MInf
  | _, _ => NaN
  end.
Definition xsqrt (x : XR) : XR :=
  match x with
  | Fin a => if Rltb a 0 then NaN else Fin (sqrt a)
  | PInf => PInf
  | MInf | NaN => NaN
  end.
Definition xabs (x : XR) : XR :=
  match x with Fin a => Fin (Rabs a) | PInf | MInf => PInf | NaN => NaN end.
Definition xltb (x y : XR) : bool :=
  match x, y with
  | NaN, _ | _, NaN => false
  | Fin a, Fin b => Rltb a b
  | MInf, MInf => false | MInf, _ => true
  | _, MInf => false
  | PInf, _ => false
  | Fin _, PInf => true
  end.
Definition xeqb (x y : XR) : bool :=
  match x, y with
  | Fin a, Fin b => Reqb a b
  | PInf, PInf | MInf, MInf => true
  | _, _ => false
  end.
Definition xleb (x y : XR) : bool := xltb x y || xeqb x y.
Definition xisnan (x : XR) : bool := match x with NaN => true | _ => false end.
Definition xisfin (x : XR) : bool := match x with Fin _ => true | _ => false end.

#[export] Instance ArithXR : Arith XR := {
  aofQ n d := Fin (IZR n / IZR (Zpos d));
  anan := NaN;
  aadd := xadd; asub := xsub; amul := xmul; adiv := xdiv;
  asqrt := xsqrt; aopp := xopp; aabs := xabs;
  altb := xltb; aleb := xleb; aeqb := xeqb;
  aisnan := xisnan; aisfin := xisfin;
}.

(** Finite part of the transcendental functions; special values as in C99/numpy. *)
Definition xln (x : XR) : XR :=
  match x with
  | Fin a => if Rltb 0 a then Fin (ln a) else if Rltb a 0 then NaN else MInf
  | PInf => PInf | MInf | NaN => NaN
  end.
Definition xexp (x : XR) : XR :=
  match x with Fin a => Fin (exp a) | PInf => PInf | MInf => Fin 0 | NaN => NaN end.
(** [x ** y]; only bases > 0, base 0, and NaN are given the numpy value; for a negative base with a
    non-integer exponent numpy gives NaN, and the model gives NaN for every negative base. *)
Definition xpow (x y : XR) : XR :=
  match x, y with
  | Fin a, Fin b =>
      if Rltb 0 a then Fin (Rpower a b)
      else if Rltb a 0 then NaN
      else if Rltb 0 b then Fin 0 else if Rltb b 0 then PInf else Fin 1
  | PInf, Fin b => if Rltb 0 b then PInf else if Rltb b 0 then Fin 0 else Fin 1
  | _, _ => NaN
  end.
(** atan2 on finite arguments, (-pi, pi]. *)
Definition Ratan2 (y x : R) : R :=
  if Rltb 0 x then atan (y / x)
  else if Rltb x 0 then (if Rleb 0 y then atan (y / x) + PI else atan (y / x) - PI)
  else if Rltb 0 y then PI / 2 else if Rltb y 0 then - (PI / 2) else 0.
Definition xatan2 (y x : XR) : XR :=
  match y, x with
  | Fin b, Fin a => Fin (Ratan2 b a)
  | _, _ => NaN   (* simplification: infinite arguments are not modelled *)
  end.
#[export] Instance TranscXR : Transc XR := {
  tln := xln; texp := xexp; tpow := xpow; tatan2 := xatan2;
  ttan x := match x with Fin a => Fin (tan a) | _ => NaN end;
  tatan x := match x with Fin a => Fin (atan a) | PInf => Fin (PI/2) | MInf => Fin (-(PI/2)) | NaN => NaN end;
  tpi := Fin PI;
}.

(* ------------------------------------------------------------------ laws *)
Lemma Rltb_true x y : Rltb x y = true <-> x < y.
Proof. unfold Rltb; destruct (Rlt_dec x y); split; intros; try congruence; lra. Qed.
Lemma Rltb_false x y : Rltb x y = false <-> y <= x.
Proof. unfold Rltb; destruct (Rlt_dec x y); split; intros; try congruence; lra. Qed.
Lemma Rleb_true x y : Rleb x y = true <-> x <= y.
Proof. unfold Rleb; destruct (Rle_dec x y); split; intros; try congruence; lra. Qed.
Lemma Rleb_false x y : Rleb x y = false <-> y < x.
Proof. unfold Rleb; destruct (Rle_dec x y); split; intros; try congruence; lra. Qed.
Lemma Reqb_true x y : Reqb x y = true <-> x = y.
Proof. unfold Reqb; destruct (Req_EM_T x y); split; intros; congruence. Qed.
Lemma Reqb_false x y : Reqb x y = false <-> x <> y.
Proof. unfold Reqb; destruct (Req_EM_T x y); split; intros; congruence. Qed.

Lemma fin_add a b : aadd (Fin a) (Fin b) = Fin (a + b). Proof. reflexivity. Qed.
Lemma fin_sub a b : asub (Fin a) (Fin b) = Fin (a - b). Proof. reflexivity. Qed.
Lemma fin_mul a b : amul (Fin a) (Fin b) = Fin (a * b). Proof. reflexivity. Qed.
Lemma fin_opp a : aopp (Fin a) = Fin (- a). Proof. reflexivity. Qed.
Lemma fin_abs a : aabs (Fin a) = Fin (Rabs a). Proof. reflexivity. Qed.
Lemma fin_div a b : b <> 0 -> adiv (Fin a) (Fin b) = Fin (a / b).
Proof. intros H; simpl. apply Reqb_false in H; rewrite H; reflexivity. Qed.
Lemma fin_sqrt a : 0 <= a -> asqrt (Fin a) = Fin (sqrt a).
Proof. intros H; simpl. apply Rltb_false in H; rewrite H; reflexivity. Qed.
Lemma fin_ofQ n d : aofQ n d = Fin (IZR n / IZR (Zpos d)). Proof. reflexivity. Qed.
Lemma fin_ofZ z : aofZ z = Fin (IZR z).
Proof. unfold aofZ; simpl. f_equal; field. Qed.
Lemma fin_a0 : (a0 : XR) = Fin 0. Proof. apply fin_ofZ. Qed.
Lemma fin_a1 : (a1 : XR) = Fin 1. Proof. apply fin_ofZ. Qed.
Lemma fin_a2 : (a2 : XR) = Fin 2. Proof. apply fin_ofZ. Qed.
Lemma fin_sq a : asq (Fin a) = Fin (a * a). Proof. reflexivity. Qed.
Lemma fin_inv a : a <> 0 -> ainv (Fin a) = Fin (/ a).
Proof.
  intros H; unfold ainv; rewrite fin_a1, fin_div by exact H. f_equal; field; exact H.
Qed.
Lemma fin_ltb a b : altb (Fin a) (Fin b) = Rltb a b. Proof. reflexivity. Qed.
Lemma fin_leb a b : aleb (Fin a) (Fin b) = Rleb a b.
Proof.
  simpl; unfold xleb, xltb, xeqb, Rltb, Reqb, Rleb.
  destruct (Rlt_dec a b), (Req_EM_T a b), (Rle_dec a b); simpl; try reflexivity; lra.
Qed.
Lemma fin_eqb a b : aeqb (Fin a) (Fin b) = Reqb a b. Proof. reflexivity. Qed.
Lemma fin_isnan a : aisnan (Fin a) = false. Proof. reflexivity. Qed.
Lemma fin_isfin a : aisfin (Fin a) = true. Proof. reflexivity. Qed.

Lemma Fin_inj a b : Fin a = Fin b -> a = b.
Proof. congruence. Qed.

Lemma nan_add_l x : aadd NaN x = NaN. Proof. reflexivity. Qed.
Lemma nan_add_r x : aadd x NaN = NaN. Proof. destruct x; reflexivity. Qed.
Lemma nan_sub_l x : asub NaN x = NaN. Proof. reflexivity. Qed.
Lemma nan_sub_r x : asub x NaN = NaN. Proof. destruct x; reflexivity. Qed.
Lemma nan_mul_l x : amul NaN x = NaN. Proof. reflexivity. Qed.
Lemma nan_mul_r x : amul x NaN = NaN. Proof. destruct x; reflexivity. Qed.
Lemma nan_div_l x : adiv NaN x = NaN. Proof. reflexivity. Qed.
Lemma nan_div_r x : adiv x NaN = NaN. Proof. destruct x; reflexivity. Qed.

(** Sums over finite entries are real sums. *)
Fixpoint Rsum (l : list R) : R := match l with [] => 0 | x :: r => x + Rsum r end.
Fixpoint Rprod (l : list R) : R := match l with [] => 1 | x :: r => x * Rprod r end.

Lemma Rsum_app l1 l2 : Rsum (l1 ++ l2) = Rsum l1 + Rsum l2.
Proof. induction l1 as [|x l IH]; simpl; [ring|]. rewrite IH; ring. Qed.

Lemma fold_add_fin l a : fold_left aadd (map Fin l) (Fin a) = Fin (a + Rsum l).
Proof.
  revert a; induction l as [|x l IH]; intros a; simpl.
  - f_equal; ring.
  - change (fold_left xadd (map Fin l) (Fin (a + x))) with (fold_left aadd (map Fin l) (Fin (a + x))).
    rewrite IH. f_equal; ring.
Qed.
Lemma sum_strict_fin l : sum_strict (map Fin l) = Fin (Rsum l).
Proof. unfold sum_strict; rewrite fin_a0, fold_add_fin. f_equal; ring. Qed.
Lemma sum_skip_fin l : sum_skip (map Fin l) = Fin (Rsum l).
Proof.
  unfold sum_skip. rewrite fin_a0.
  assert (H : forall a, fold_left (fun acc x => if aisnan x then acc else aadd acc x)
                          (map Fin l) (Fin a) = Fin (a + Rsum l)).
  { induction l as [|x l IH]; intros a; [simpl; f_equal; ring|].
    cbn [map fold_left]. rewrite fin_isnan, fin_add, IH. f_equal; simpl; ring. }
  rewrite H. f_equal; ring.
Qed.
Lemma prod_skip_fin l : prod_skip (map Fin l) = Fin (Rprod l).
Proof.
  unfold prod_skip. rewrite fin_a1.
  assert (H : forall a, fold_left (fun acc x => if aisnan x then acc else amul acc x)
                          (map Fin l) (Fin a) = Fin (a * Rprod l)).
  { induction l as [|x l IH]; intros a; [simpl; f_equal; ring|].
    cbn [map fold_left]. rewrite fin_isnan, fin_mul, IH. f_equal; simpl; ring. }
  rewrite H. f_equal; ring.
Qed.
(** A NaN entry is dropped by the skipping sum and absorbs the strict one. *)
Lemma sum_skip_nan l : sum_skip (map (fun _ : R => NaN) l) = Fin 0.
Proof.
  unfold sum_skip. rewrite fin_a0. induction l as [|x l IH]; simpl; [reflexivity|exact IH].
Qed.
Lemma fold_add_nan l : fold_left aadd l NaN = NaN.
Proof. induction l as [|x l IH]; simpl; [reflexivity|exact IH]. Qed.
Lemma sum_strict_nan l : In NaN l -> sum_strict l = NaN.
Proof.
  unfold sum_strict. generalize (a0 : XR).
  induction l as [|x l IH]; intros a Hin; [destruct Hin|].
  cbn [fold_left]. destruct Hin as [->|Hin]; [|apply IH; exact Hin].
  rewrite nan_add_r. apply fold_add_nan.
Qed.

Lemma Rsum_nonneg l : (forall x, In x l -> 0 <= x) -> 0 <= Rsum l.
Proof.
  induction l as [|x l IH]; intros H; simpl; [lra|].
  pose proof (H x (or_introl eq_refl)).
  assert (0 <= Rsum l) by (apply IH; intros y Hy; apply H; right; exact Hy). lra.
Qed.
Lemma Rsum_map_plus {A} (f g : A -> R) l :
  Rsum (map (fun x => f x + g x) l) = Rsum (map f l) + Rsum (map g l).
Proof. induction l as [|x l IH]; simpl; [ring|]. rewrite IH; ring. Qed.
Lemma Rsum_map_scal {A} (c : R) (f : A -> R) l :
  Rsum (map (fun x => c * f x) l) = c * Rsum (map f l).
Proof. induction l as [|x l IH]; simpl; [ring|]. rewrite IH; ring. Qed.
Lemma Rsum_le {A} (f g : A -> R) l :
  (forall x, In x l -> f x <= g x) -> Rsum (map f l) <= Rsum (map g l).
Proof.
  induction l as [|x l IH]; intros H; simpl; [lra|].
  pose proof (H x (or_introl eq_refl)).
  assert (Rsum (map f l) <= Rsum (map g l)) by (apply IH; intros y Hy; apply H; right; exact Hy).
  lra.
Qed.

(** Rewriting with the finite laws. *)
Ltac xfin :=
  repeat first
    [ rewrite fin_a0 | rewrite fin_a1 | rewrite fin_a2 | rewrite fin_ofZ | rewrite fin_ofQ
    | rewrite fin_sq | rewrite fin_add | rewrite fin_sub | rewrite fin_mul | rewrite fin_opp
    | rewrite fin_abs | rewrite fin_isnan | rewrite fin_isfin ].

#[global] Opaque ArithXR TranscXR.
