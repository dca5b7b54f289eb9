(** tools/__init__.py: swap_protons and normal_parameters. *)
From Coq Require Import List String Bool Arith ZArith.
From Verif Require Import Py PyStr Sort Num Species Frame.
Import ListNotations.
Open Scope string_scope.
Open Scope list_scope.

(** The column that records the exchange, tools/__init__.py 74. *)
Definition swap_label : key := ("swapped_protons", "", "").
(** ditto: tools/__init__.py 74 *)
Definition to_species (s : string) (k : key) : key := (kM k, kC k, s).
(** ditto: tools/__init__.py 74 *)
Definition of_species (s : string) (k : key) : bool := String.eqb (kS k) s.

Section Swap.
  Context {T : Type} {A : Arith T}.
  Local Open Scope num_scope.

  (** tools/__init__.py 73: [n2.divide(n1) > 1.0] in a row *)
  Definition swap_flag (r : row T) : bool := agtb (r ("n", "", "p2") / r ("n", "", "p1")) (aofZ 1).

  (** tools/__init__.py 76-81: [p1.mask(swap, p2_into_p1)] and [p2.mask(swap, p1_into_p2)] in a row; a column the other
      proton does not have is filled with NaN where the row is swapped. [cols] are the columns of the table. *)
  Definition swap_row (cols : list key) (r : row T) : row T := fun k =>
    if swap_flag r then
      if of_species "p1" k then
        (if mem_key (to_species "p2" k) cols then r (to_species "p2" k) else anan)
      else if of_species "p2" k then
        (if mem_key (to_species "p1" k) cols then r (to_species "p1" k) else anan)
      else r k
    else r k.

  (** The returned table: all its column labels in order, the values of every column but the newly added
      one, and the values of that column (also the second value returned by the function).
      Simplification: the log message (98-110) is not modelled. tools/__init__.py 83-112 *)
  Record swapped := mkSwapped { s_labels : list key; s_table : frame T; s_flags : list bool }.

  (** tools/__init__.py 35-112 [swap_protons]. Simplifications: the index has no duplicates (otherwise the
      realignment of the swapped rows in 79-81 is not a row-wise operation); the density of each proton is
      one column, ('n','',p) (an ('n', c, p) with another c makes 73-74 fail: AttributeError). *)
  Definition swap_protons (data : frame T) : result swapped :=
    let cols := f_cols data in
    if negb (has_label kS "p1" cols) then Err KeyError                        (* 67 *)
    else if negb (has_label kS "p2" cols) then Err KeyError                   (* 68 *)
    else if negb (forallb (fun s => mem_key ("n", "", s) cols &&
                     forallb (fun k => negb (of_species s k && String.eqb (kM k) "n") || String.eqb (kC k) "") cols)
                   ["p1"; "p2"]) then Err AttributeError                      (* 70-74 *)
    else
      let p1 := filter (of_species "p1") cols in
      let p2 := filter (of_species "p2") cols in
      let rest := filter (fun k => negb (of_species "p1" k || of_species "p2" k)) cols in
      Ok {| s_labels := sort_by key_leb (rest ++ p1 ++ p2 ++ [swap_label]);    (* 83-91 *)
            s_table := {| f_cols := sort_by key_leb (rest ++ p1 ++ p2); f_dt := f_dt data;
                          f_rows := map (fun zr => (fst zr, swap_row cols (snd zr))) (f_rows data) |};
            s_flags := map (fun zr => swap_flag (snd zr)) (f_rows data) |}.
            (* 93-96: the check divides n(p2) by itself, so it is 1 or NaN (NaN is dropped) in every row
               and never fails *)
  (** What a caller sees as the next input: the returned table. tools/__init__.py 83-112 *)
  Definition swapped_frame (s : swapped) : frame T :=
    {| f_cols := s_labels s; f_dt := f_dt (s_table s);
       f_rows := map (fun zrb => (fst (fst zrb),
                                  fun k => if key_eqb k swap_label then (if snd zrb : bool then aofZ 1 else aofZ 0)
                                           else snd (fst zrb) k))
                     (combine (f_rows (s_table s)) (s_flags s)) |}.
End Swap.
Arguments mkSwapped {T}. Arguments s_labels {T}. Arguments s_table {T}. Arguments s_flags {T}.

Section LogNormal.
  Context {T : Type} {A : Arith T} {TT : Transc T}.
  Local Open Scope num_scope.
  (** tools/__init__.py 115-161 [normal_parameters]: mean and standard deviation of the log-normal *)
  Definition normal_mu (m s : T) : T := texp (m + asq s / aofZ 2).
  (** ditto: tools/__init__.py 115-161 *)
  Definition normal_sigma (m s : T) : T := asqrt (texp (asq s + aofZ 2 * m) * (texp (asq s) - aofZ 1)).
End LogNormal.
