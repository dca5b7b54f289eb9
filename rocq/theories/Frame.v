(** Data frames with a three-level column index (M, C, S), and the Plasma/Ion constructors.

    A frame is its list of column keys, whether its index is a DatetimeIndex, and its rows: the
    index label (an integer standing for the time stamp or label) and the value of each column.
    Simplification: a row is a function of the key, so two columns with the same key hold the same
    values (the first of duplicated columns, which is what [set_data] keeps). *)
From Coq Require Import List String Ascii Bool Arith ZArith.
From Verif Require Import Py PyStr Sort Num Species.
Import ListNotations.
Open Scope string_scope.
Open Scope py_scope.

(** pandas: a column label of the (M, C, S) tables of core/plasma.py 724-770 *)
Definition key : Type := string * string * string.       (* (M, C, S) *)
(** pandas: a column label of the (M, C, S) tables of core/plasma.py 724-770 *)
Definition kM (k : key) : string := fst (fst k).
(** pandas: a column label of the (M, C, S) tables of core/plasma.py 724-770 *)
Definition kC (k : key) : string := snd (fst k).
(** pandas: a column label of the (M, C, S) tables of core/plasma.py 724-770 *)
Definition kS (k : key) : string := snd k.

(** pandas: a column label of the (M, C, S) tables of core/plasma.py 724-770 *)
Definition key_eqb (a b : key) : bool :=
  String.eqb (kM a) (kM b) && String.eqb (kC a) (kC b) && String.eqb (kS a) (kS b).
(** lexicographic order of [sort_index(axis=1)]. core/plasma.py 714, 728, 740, 764, 767 *)
Definition key_leb (a b : key) : bool :=
  if String.eqb (kM a) (kM b) then
    if String.eqb (kC a) (kC b) then str_leb (kS a) (kS b)
    else str_leb (kC a) (kC b)
  else str_leb (kM a) (kM b).
(** membership in and distinct labels of a pandas column index (core/plasma.py 724-770) *)
Definition mem_key (k : key) (l : list key) : bool := existsb (key_eqb k) l.
(** membership in and distinct labels of a pandas column index (core/plasma.py 724-770) *)
Fixpoint nodup_key (l : list key) : list key :=
  match l with
  | [] => []
  | k :: r => if mem_key k r then nodup_key r else k :: nodup_key r
  end.

(** a pandas row and table as handed to core/plasma.py 724-770 *)
Definition row (T : Type) : Type := key -> T.

(** a pandas row and table as handed to core/plasma.py 724-770 *)
Record frame (T : Type) := mkFrame {
  f_cols : list key;
  f_dt : bool;                       (* the index is a pandas.DatetimeIndex *)
  f_rows : list (Z * row T);
}.
Arguments mkFrame {T}. Arguments f_cols {T}. Arguments f_dt {T}. Arguments f_rows {T}.
(** a pandas row and table as handed to core/plasma.py 724-770 *)
Definition f_index {T} (f : frame T) : list Z := map fst (f_rows f).

(** [frame.empty]. core/plasma.py 724-770 (checks of the incoming table) *)
Definition f_empty {T} (f : frame T) : bool :=
  match f_cols f, f_rows f with [], _ => true | _, [] => true | _, _ => false end.

(** [data.loc[:, mask]]. core/plasma.py 738-740 *)
Definition f_select {T} (p : key -> bool) (f : frame T) : frame T :=
  {| f_cols := filter p (f_cols f); f_dt := f_dt f; f_rows := f_rows f |}.

(** a label present at a level of the columns (core/plasma.py 734-770) *)
Definition has_label (get : key -> string) (x : string) (cols : list key) : bool :=
  existsb (fun k => String.eqb (get k) x) cols.

(** core/plasma.py 734-738: the measurements and components that belong to the plasma *)
Definition plasma_M : list string := ["b"; "n"; "v"; "w"].
(** core/plasma.py 734-738: the measurements and components that belong to the plasma *)
Definition plasma_C : list string := [""; "x"; "y"; "z"; "per"; "par"].

(** core/plasma.py 734-738: the columns selected by the [tk_plasma] slice. *)
Definition in_slice (species : list string) (k : key) : bool :=
  mem_str (kM k) plasma_M && mem_str (kC k) plasma_C && mem_str (kS k) (species ++ [""]).

(** core/plasma.py 740 with pandas 2: [.loc] with lists raises KeyError if a label of a list does not
    occur on its level. *)
Definition slice_ok (species : list string) (cols : list key) : bool :=
  forallb (fun x => has_label kM x cols) plasma_M &&
  forallb (fun x => has_label kC x cols) plasma_C &&
  forallb (fun x => has_label kS x cols) (species ++ [""]).

Section SetData.
  Context {T : Type} {A : Arith T}.
  Local Open Scope num_scope.

  (** core/plasma.py 744-758: the scalar thermal speed of species [s] in a row;
      [wcols] are the ('w', par/per, s) columns present. [.pow(0.5)] of a NaN-skipping sum. *)
  Definition w_coeff (c : string) : T :=
    (if String.eqb c "per" then aofZ 2 else aofZ 1) / aofZ 3.
  (** ditto: core/plasma.py 744-758 *)
  Definition is_wcol (k : key) : bool :=
    String.eqb (kM k) "w" && (String.eqb (kC k) "par" || String.eqb (kC k) "per").
  (** ditto: core/plasma.py 744-758 *)
  Definition w_scalar (cols : list key) (s : string) (r : row T) : T :=
    asqrt (sum_skip (map (fun k => asq (r k) * w_coeff (kC k))
                         (filter (fun k => is_wcol k && String.eqb (kS k) s) cols))).

  (** core/plasma.py 761-767: the row with the scalar columns added. *)
  Definition add_scalar (cols : list key) (r : row T) : row T :=
    fun k => if String.eqb (kM k) "w" && String.eqb (kC k) "scalar"
             then w_scalar cols (kS k) r else r k.

  (** core/plasma.py 724-786 [Plasma.set_data], returning the stored frame.
      The column level names are assumed to be M, C, S (728-729). Logging is not modelled. *)
  Definition plasma_set_data (species : list string) (new : frame T) : result (frame T) :=
    if f_empty new then Err ValueError                                  (* base.py 239-240 *)
    else if negb (slice_ok species (f_cols new)) then Err KeyError      (* 740 *)
    else
      let kept := nodup_key (sort_by key_leb (filter (in_slice species) (f_cols new))) in (* 740-742 *)
      if negb (has_label kM "w" kept && has_label kC "par" kept && has_label kC "per" kept)
      then Err KeyError                                                 (* 747 *)
      else
      let ss := unique_str (map kS (filter is_wcol kept)) in            (* 758 *)
      let cols := sort_by key_leb (kept ++ map (fun s => ("w", "scalar", s)) ss) in (* 764-767 *)
      let data := {| f_cols := cols; f_dt := f_dt new;
                     f_rows := map (fun zr => (fst zr, add_scalar kept (snd zr))) (f_rows new) |} in
      (* 784: BField(data.b.xs("", axis=1, level="S")) *)
      if negb (has_label kM "b" kept) then Err AttributeError
      else if negb (existsb (fun k => String.eqb (kM k) "b" && String.eqb (kS k) "") kept)
      then Err KeyError
      else if negb (forallb (fun c => mem_key ("b", c, "") kept) ["x"; "y"; "z"])
      then Err ValueError                                               (* vector.py 62-69 *)
      else Ok data.

  (** core/ions.py 116-148 [Ion.set_data] on a frame with levels (M, C, S). *)
  Definition ion_required (s : string) : list key :=
    [("n", "", s); ("v", "x", s); ("v", "y", s); ("v", "z", s); ("w", "par", s); ("w", "per", s)].
  (** ditto: core/ions.py 116-148 *)
  Definition ion_set_data (data : frame T) (s : string) : result unit :=
    if f_empty data then Err ValueError
    else if negb (has_label kS s (f_cols data)) then Err KeyError       (* xs, 133 *)
    else if negb (forallb (fun k => mem_key k (f_cols data)) (ion_required s))
    then Err ValueError                                                 (* 145-146 *)
    else Ok tt.

  (** core/plasma.py 540-551 [Plasma._set_ions]: the new species tuple. *)
  Definition set_ions (species : list string) (data : frame T) : result (list string) :=
    let species := match species with [s] => split_on comma s | _ => species end in  (* 542-543 *)
    assert (forallb (fun s => negb (has_char plus s)) species) ;;                      (* 544-546 *)
    bind (mapM (fun s => ion_set_data data s) species) (fun _ => Ok species).          (* 549-551 *)
End SetData.

(** A Spacecraft as far as the Plasma is concerned: its table (levels M, C; the S level is left
    empty here), its name and its frame of reference. core/plasma.py 598-635 (set_spacecraft), core/spacecraft.py 172-256 *)
Record spacecraft (T : Type) := mkSC { sc_data : frame T; sc_name : string; sc_frame : string }.
Arguments mkSC {T}. Arguments sc_data {T}. Arguments sc_name {T}. Arguments sc_frame {T}.

(** the attributes of core/plasma.py 100-130, 540-770 *)
Record plasma (T : Type) := mkPlasma {
  p_species : list string;
  p_ions : list string;                 (* index of [Plasma.ions] *)
  p_data : frame T;
  p_ion_data : frame T;                 (* the table the Ion objects were built from *)
  p_sc : option (spacecraft T);
  p_aux : option (frame T);
}.
Arguments mkPlasma {T}. Arguments p_species {T}. Arguments p_ions {T}.
Arguments p_data {T}. Arguments p_ion_data {T}. Arguments p_sc {T}. Arguments p_aux {T}.

(** equality of two indexes, core/plasma.py 598-635 *)
Definition list_Z_eqb (a b : list Z) : bool := if list_eq_dec Z.eq_dec a b then true else false.

Section Construct.
  Context {T : Type} {A : Arith T}.

  (** core/plasma.py 598-635 [set_spacecraft]: the checks made before the assignment. *)
  Definition sc_check (data : frame T) (new : option (spacecraft T)) : result unit :=
    match new with
    | None => Ok tt
    | Some sc => assert (f_dt (sc_data sc)) ;;
                 assert (list_Z_eqb (f_index (sc_data sc)) (f_index data)) ;; Ok tt
    end.
  (** ditto: core/plasma.py 598-635 *)
  Definition set_spacecraft (p : plasma T) (new : option (spacecraft T)) : result (plasma T) :=
    bind (sc_check (p_data p) new) (fun _ =>
    Ok {| p_species := p_species p; p_ions := p_ions p; p_data := p_data p; p_ion_data := p_ion_data p; p_sc := new; p_aux := p_aux p |}).

  (** core/plasma.py 637-676 [set_auxiliary_data]. *)
  Definition aux_check (data : frame T) (new : option (frame T)) : result unit :=
    match new with
    | None => Ok tt
    | Some a => assert (f_dt a) ;;
                assert (list_Z_eqb (f_index a) (f_index data)) ;;
                if existsb (fun k => mem_key k (f_cols data)) (f_cols a) then Err ValueError
                else Ok tt
    end.
  (** ditto: core/plasma.py 637-676 *)
  Definition set_aux (p : plasma T) (new : option (frame T)) : result (plasma T) :=
    bind (aux_check (p_data p) new) (fun _ =>
    Ok {| p_species := p_species p; p_ions := p_ions p; p_data := p_data p; p_ion_data := p_ion_data p; p_sc := p_sc p; p_aux := new |}).

  (** core/plasma.py 121-206 [Plasma.__init__]. *)
  Definition make_plasma (data : frame T) (species : list string)
             (sc : option (spacecraft T)) (aux : option (frame T)) : result (plasma T) :=
    species <- clean_species_for_setting species ;;        (* 201, 495-502 *)
    data <- plasma_set_data species data ;;                (* 203 *)
    ions <- set_ions species data ;;                       (* 204 *)
    let p0 := {| p_species := ions; p_ions := nodup_str ions; p_data := data; p_ion_data := data; p_sc := None; p_aux := None |} in
    p1 <- set_spacecraft p0 sc ;;                          (* 205 *)
    set_aux p1 aux.                                        (* 206 *)

  (** core/plasma.py 724-786: [set_data] called on an existing plasma; it stores the new table and
      the new magnetic field but rebuilds neither [ions], nor the spacecraft, nor the auxiliary data. *)
  Definition call_set_data (p : plasma T) (new : frame T) : result (plasma T) :=
    d <- plasma_set_data (p_species p) new ;;
    Ok {| p_species := p_species p; p_ions := p_ions p; p_data := d; p_ion_data := p_ion_data p;
          p_sc := p_sc p; p_aux := p_aux p |}.

  (** core/plasma.py 553-596 [Plasma.drop_species]. *)
  Definition keep_mask (remaining : list string) (k : key) : bool :=
    String.eqb (kS k) "" || mem_str (kS k) remaining.
  (** ditto: core/plasma.py 553-596 *)
  Definition drop_species (p : plasma T) (args : list pyarg) : result (plasma T) :=
    to_drop <- chk_species (p_ions p) args ;;                                   (* 572 *)
    let remaining := filter (fun s => negb (mem_str s to_drop)) (p_species p) in (* 573 *)
    match remaining with
    | [] => Err ValueError                                                      (* 574-575 *)
    | _ => make_plasma (f_select (keep_mask remaining) (p_data p)) remaining (p_sc p)
             (match p_aux p with
              | None => None
              | Some a => Some (f_select (keep_mask remaining) a)
              end)                                                              (* 577-596 *)
    end.
End Construct.
