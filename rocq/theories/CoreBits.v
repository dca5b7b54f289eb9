(** core/ions.py: the specific entropy of one ion; core/tensor.py: the tensor object. Extends [Plasma]. *)
From Coq Require Import List String Bool Arith ZArith.
From Verif Require Import Py PyStr Num Species Frame Plasma.
Import ListNotations.
Open Scope string_scope.
Open Scope list_scope.

Section Ion.
  Context {T : Type} {A : Arith T} {TR : Transc T}.
  Local Open Scope num_scope.
  (** core/ions.py 260-279 [Ion.specific_entropy] and 282-284 [Ion.S] *)
  Definition ion_specific_entropy (K : consts T) (s : string) : result (row T -> T) :=
    pth <- ion_pth K "scalar" s ;; rho <- ion_rho K s ;;
    Ok (fun r => ((pth r * u_pth) * tpow (rho r * u_rho K) (- gamma)) / u_entropy K).
End Ion.

Section Tensor.
  Context {T : Type}.
  (** a table: its column names and its rows. core/tensor.py 18-28 *)
  Record table := mkTable { tb_cols : list string; tb_rows : list (Z * (string -> T)) }.
  (** core/tensor.py 66-83 [_validate_data] *)
  Definition validate (d : table) : result unit :=
    if forallb (fun c => mem_str c (tb_cols d)) ["per"; "par"; "scalar"] then Ok tt else Err ValueError.
  (** core/tensor.py 50-64 [Tensor.set_data] after base.py 239-240, which refuses an empty table: the tensor [t] after the call. The
      new data is validated, never stored. A warning about the index is not modelled *)
  Definition tensor_set_data (t : option table) (new : table) : result (option table) :=
    if (match tb_cols new with [] => true | _ => false end || match tb_rows new with [] => true | _ => false end)%bool then Err ValueError
    else bind (validate new) (fun _ => Ok t).
  (** core/tensor.py 18-28: base.py 204-206 calls set_data; then the data is stored *)
  Definition tensor_new (d : table) : result table :=
    bind (tensor_set_data None d) (fun _ => bind (validate d) (fun _ => Ok d)).
End Tensor.

Section TensorMagnitude.
  Context {T : Type} {A : Arith T}.
  Local Open Scope num_scope.
  (** core/tensor.py 85-90: pandas takes the dictionary of weights as one list entry per column of the table, and refuses it with a
      ValueError when their numbers differ *)
  Definition weights : list (string * T) := [("par", aofZ 1 / aofZ 3); ("per", aofZ 2 / aofZ 3)].
  (** ditto: core/tensor.py 88; with as many columns as weights each column is weighted by its name, NaN without one *)
  Definition weight_of (c : string) : option T := option_map snd (find (fun w => String.eqb (fst w) c) weights).
  (** core/tensor.py 86-90 [Tensor.magnitude]: one number for each row *)
  Definition tensor_magnitude (d : table (T := T)) : result (list T) :=
    if Nat.eqb (List.length (tb_cols d)) (List.length weights)
    then Ok (map (fun r => sum_skip (map (fun c => match weight_of c with Some w => snd r c * w | None => a0 / a0 end) (tb_cols d))) (tb_rows d))
    else Err ValueError.
End TensorMagnitude.
