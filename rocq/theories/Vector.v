(** The spherical coordinates of a Vector (core/vector.py 97-181). Magnitude, unit vector, projection and
    angle are in Plasma.v ([vmag], [unit_vector], [project_par], [project_per], [cos_theta]). One row. *)
From Coq Require Import List ZArith Bool String.
From Verif Require Import Py PyStr Num Species Frame Plasma.
Import ListNotations.

Section Vector.
  Context {T : Type} {A : Arith T} {TR : Transc T}.
  Local Open Scope num_scope.

  (** [np.rad2deg]. core/vector.py 131, 155, 168 *)
  Definition rad2deg (x : T) : T := x * (aofZ 180 / tpi).
  (** core/vector.py 97-109 [rho] *)
  Definition vrho (v : vec T) : T := let '(x, y, z) := v in asqrt (sum_strict [asq x; asq y]).
  (** core/vector.py 122-133 [colatitude] *)
  Definition vcolatitude (v : vec T) : T := let '(x, y, z) := v in rad2deg (tatan2 z (vrho v)).
  (** core/vector.py 146-157 [latitude] *)
  Definition vlatitude (v : vec T) : T := let '(x, y, z) := v in rad2deg (tatan2 (vrho v) z).
  (** core/vector.py 159-170 [longitude] *)
  Definition vlongitude (v : vec T) : T := let '(x, y, z) := v in rad2deg (tatan2 y x).
  (** core/vector.py 183-194 [r] *)
  Definition vr (v : vec T) : T := vmag v.
End Vector.

(** core/vector.py 61-70 [Vector.set_data] for plain (not MultiIndex) columns. *)
Definition vector_set_data (cols : list string) (nrows : nat) : result unit :=
  if (match cols with [] => true | _ => false end || Nat.eqb nrows 0)%bool then Err ValueError
  else if forallb (fun c => mem_str c cols) ["x"; "y"; "z"]%string then Ok tt else Err ValueError.

(** What is passed to [project] / [cos_theta]: another Vector (or BField), or anything else. core/vector.py 249, 284 *)
Inductive projarg (T : Type) := PVec (v : vec T) | POther.
Arguments PVec {T}. Arguments POther {T}.
Section Call.
  Context {T : Type} {A : Arith T}.
  (** core/vector.py 249-254, 284-289 *)
  Definition project_call (v : vec T) (other : projarg T) : result (T * T) :=
    match other with PVec b => Ok (project_par v b, project_per v b) | POther => Err NotImplementedError end.
  (** ditto: core/vector.py 249-254, 284-289 *)
  Definition cos_theta_call (v : vec T) (other : projarg T) : result T :=
    match other with PVec b => Ok (cos_theta v b) | POther => Err NotImplementedError end.
End Call.
