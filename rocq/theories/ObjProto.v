(** Python object protocol of the core classes: [==], attribute lookup on a Plasma, calling a Vector. *)
From Coq Require Import List String Bool Arith ZArith.
From Verif Require Import Py PyStr Num.
Import ListNotations.
Open Scope string_scope.

(* ------------------------------------------------------------------ equality *)
(** The classes deriving from [Core] (core/base.py 20, 190 and the core modules). *)
Inductive cls := KPlasma | KIon | KVector | KBField | KTensor | KSpacecraft | KAlfven.
(** ditto: core/base.py 20, 190 *)
Definition cls_eqb (a b : cls) : bool :=
  match a, b with
  | KPlasma, KPlasma | KIon, KIon | KVector, KVector | KBField, KBField | KTensor, KTensor
  | KSpacecraft, KSpacecraft | KAlfven, KAlfven => true
  | _, _ => false
  end.
(** issubclass; core/vector.py 294: BField(Vector) *)
Definition subclass (a b : cls) : bool :=
  cls_eqb a b || match a, b with KBField, KVector => true | _, _ => false end.

(** A table as far as [DataFrame.equals] looks at it: index, column labels and cells, all of one dtype. pandas DataFrame.equals as called in core/base.py 56-80, core/ions.py 82-97 *)
Record table (T : Type) := mkTable { t_index : list Z; t_cols : list string; t_cells : list (list T) }.
Arguments mkTable {T}. Arguments t_index {T}. Arguments t_cols {T}. Arguments t_cells {T}.

Section Equals.
  Context {T : Type} {A : Arith T}.
  (** [DataFrame.equals]: NaN equals NaN in the same place. pandas DataFrame.equals as called in core/base.py 56-80, core/ions.py 82-97 *)
  Definition cell_eqb (x y : T) : bool := if aisnan x then aisnan y else aeqb x y.
  (** pandas DataFrame.equals as called in core/base.py 56-80, core/ions.py 82-97 *)
  Fixpoint list_eqb {X} (e : X -> X -> bool) (a b : list X) : bool :=
    match a, b with
    | [], [] => true
    | x :: a', y :: b' => e x y && list_eqb e a' b'
    | _, _ => false
    end.
  (** pandas DataFrame.equals as called in core/base.py 56-80, core/ions.py 82-97 *)
  Definition table_equals (a b : table T) : bool :=
    list_eqb Z.eqb (t_index a) (t_index b) && list_eqb String.eqb (t_cols a) (t_cols b) &&
    list_eqb (list_eqb cell_eqb) (t_cells a) (t_cells b).

  (** the object as core/base.py 56-80 and core/ions.py 82-97 compare it; what __eq__ returns *)
  Record obj := mkObj { o_id : Z; o_cls : cls; o_species : string; o_data : table T }.
  (** the object as core/base.py 56-80 and core/ions.py 82-97 compare it; what __eq__ returns *)
  Inductive answer := ATrue | AFalse | ANotImplemented.
  (** the object as core/base.py 56-80 and core/ions.py 82-97 compare it; what __eq__ returns *)
  Definition of_bool (b : bool) : answer := if b then ATrue else AFalse.

  (** core/base.py 56-80 [Core.__eq__] and core/ions.py 82-97 [Ion.__eq__]. [DataFrame.equals] does not
      raise the ValueError of lines 77-80. *)
  Definition eq_method (self other : obj) : answer :=
    match o_cls self with
    | KIon => if subclass (o_cls other) KIon
              then of_bool (String.eqb (o_species self) (o_species other) && table_equals (o_data self) (o_data other))
              else ANotImplemented
    | _ => if Z.eqb (o_id self) (o_id other) then ATrue
           else if negb (subclass (o_cls other) (o_cls self)) then AFalse
           else of_bool (table_equals (o_data self) (o_data other))
    end.
  (** Python's [a == b]: the right operand's method goes first if its class is a proper subclass of the
      left one's; NotImplemented passes to the other operand, then to identity. core/base.py 56-80, core/ions.py 82-97 *)
  Definition py_eq (a b : obj) : bool :=
    let first_second :=
      if subclass (o_cls b) (o_cls a) && negb (cls_eqb (o_cls a) (o_cls b)) then (eq_method b a, eq_method a b)
      else (eq_method a b, eq_method b a) in
    match first_second with
    | (ATrue, _) => true
    | (AFalse, _) => false
    | (ANotImplemented, ATrue) => true
    | (ANotImplemented, AFalse) => false
    | (ANotImplemented, ANotImplemented) => Z.eqb (o_id a) (o_id b)
    end.
End Equals.
Arguments obj : clear implicits.

(* ------------------------------------------------------------------ attributes *)
(** A Plasma object: the names its class defines (methods and properties other than [ions], and what
    [object] provides), the instance attributes set so far, and the value of [_ions] once set. core/plasma.py 208-215, 536-551 *)
Record pobj := mkPobj { a_class : list string; a_dict : list string; a_ions : option (list string) }.
(** core/plasma.py 208-215, 536-551 *)
Inductive attr_value := VAttr (name : string) | VIonObj (s : string) | VIons (l : list string).

(** core/plasma.py 208-212 [__getattr__] and 535-538 [ions], with Python's lookup: class and instance
    attributes first, then [__getattr__]; a property that raises AttributeError falls back on
    [__getattr__] too. [depth] is the number of nested Python calls left. *)
Fixpoint getattr (depth : nat) (o : pobj) (name : string) : result attr_value :=
  match depth with
  | O => Err RecursionError
  | S d =>
      let hook (n : string) :=                     (* __getattr__ *)
        match getattr d o "ions" with
        | Ok (VIons l) => if mem_str n l then Ok (VIonObj n) else Err AttributeError
        | Ok _ => Err AttributeError
        | Err e => Err e
        end in
      if String.eqb name "ions" then               (* the property: self._ions *)
        match (match a_ions o with Some l => Ok (VIons l) | None => getattr d o "_ions" end) with
        | Err AttributeError => hook "ions"
        | r => r
        end
      else if String.eqb name "_ions" then
        match a_ions o with Some l => Ok (VIons l) | None => hook "_ions" end
      else if mem_str name (a_class o) || mem_str name (a_dict o) then Ok (VAttr name)
      else hook name
  end.

(** core/vector.py 33-46 and core/tensor.py 30-48 [__call__]: no class above defines [__getattr__], so the
    explicit look-up of that name fails before the component is looked at. *)
Definition vector_classes_define : list string :=
  ["set_data"; "mag"; "magnitude"; "rho"; "colat"; "colatitude"; "lat"; "latitude"; "longitude"; "lon"; "r";
   "cartesian"; "unit_vector"; "uv"; "project"; "cos_theta"; "pressure"; "pb";
   "logger"; "units"; "constants"; "data"; "mi_tuples"; "head"; "tail";
   "__init__"; "__call__"; "__eq__"; "__str__"; "__getattribute__"; "__setattr__"; "__reduce_ex__"].
(** ditto: core/vector.py 33-46 *)
Definition vector_call {T} (cell : string -> option T) (component : string) : result T :=
  if mem_str "__getattr__" vector_classes_define
  then match cell component with Some x => Ok x | None => Err AttributeError end
  else Err AttributeError.
