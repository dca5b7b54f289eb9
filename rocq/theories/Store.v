(** Saving and loading a Plasma (core/plasma.py 296-493).

    A file is the list of its keys with the table stored under each (pandas fixed format keeps index,
    columns and values). [to_hdf] opens with mode 'a': it replaces the table of its own key and leaves
    the others. Simplifications: keys contain no "/" (an HDF path), the three modifier functions of
    [save] are not used, extra keyword arguments of [load_from_file] are not given, and the level names
    (435, 463, 483) are M, C, S. *)
From Coq Require Import List String Bool ZArith.
From Verif Require Import Py PyStr Sort Num Species Frame Plasma Spacecraft.
Import ListNotations.
Open Scope string_scope.
Open Scope py_scope.

(** the HDF5 file of core/plasma.py 296-397, 434, 462, 482 (pandas to_hdf / read_hdf) *)
Definition file (T : Type) : Type := list (string * frame T).

Section Store.
  Context {T : Type} {A : Arith T}.

  (** the HDF5 file of core/plasma.py 296-397, 434, 462, 482 (pandas to_hdf / read_hdf) *)
  Fixpoint h_get (f : file T) (k : string) : option (frame T) :=
    match f with
    | [] => None
    | (k', d) :: r => if String.eqb k k' then Some d else h_get r k
    end.
  (** [to_hdf(fname, key=k)]. the HDF5 file of core/plasma.py 296-397, 434, 462, 482 (pandas to_hdf / read_hdf) *)
  Definition h_put (k : string) (d : frame T) (f : file T) : file T :=
    (k, d) :: filter (fun kd => negb (String.eqb k (fst kd))) f.
  (** [pd.read_hdf(fname, key=k)] on an existing file. the HDF5 file of core/plasma.py 296-397, 434, 462, 482 (pandas to_hdf / read_hdf) *)
  Definition read_hdf (f : file T) (k : string) : result (frame T) :=
    match h_get f k with Some d => Ok d | None => Err KeyError end.

  (** core/plasma.py 351: [data.drop("scalar", axis=1, level="C")] *)
  Definition drop_scalar (d : frame T) : result (frame T) :=
    if has_label kC "scalar" (f_cols d) then Ok (f_select (fun k => negb (String.eqb (kC k) "scalar")) d)
    else Err KeyError.

  (** core/plasma.py 296-397 [save]: the writes made, in order. *)
  Definition save_writes (p : plasma T) (dkey sckey akey : string) : result (list (string * frame T)) :=
    d <- drop_scalar (p_data p) ;;
    Ok ((dkey, d)
        :: match p_sc p with Some sc => [(sckey, sc_data sc)] | None => [] end
        ++ match p_aux p with Some a => [(akey, a)] | None => [] end)%list.
  (** ditto: core/plasma.py 296-397 *)
  Definition write_all (ws : list (string * frame T)) (f : file T) : file T :=
    fold_left (fun f kd => h_put (fst kd) (snd kd) f) ws f.
  (** ditto: core/plasma.py 296-397 *)
  Definition save (p : plasma T) (dkey sckey akey : string) (f : file T) : result (file T) :=
    ws <- save_writes p dkey sckey akey ;; Ok (write_all ws f).
  (** The process dies after [n] of the writes. core/plasma.py 296-397, between two of its writes *)
  Definition save_crash (n : nat) (p : plasma T) (dkey sckey akey : string) (f : file T) : result (file T) :=
    ws <- save_writes p dkey sckey akey ;; Ok (write_all (firstn n ws) f).

  (** [data.loc[start:stop]], core/plasma.py 436-438 *)
  Fixpoint monotonic (l : list Z) : bool :=
    match l with
    | x :: ((y :: _) as r) => Z.leb x y && monotonic r
    | _ => true
    end.
  (** [data.loc[start:stop]], core/plasma.py 436-438 *)
  Definition in_window (start stop : option Z) (t : Z) : bool :=
    match start with Some a => Z.leb a t | None => true end &&
    match stop with Some b => Z.leb t b | None => true end.
  (** core/plasma.py 437-438: [data.loc[start:stop]]. Simplification: on an index that is not
      increasing pandas slices by position of the two labels or raises KeyError; here it raises. *)
  Definition loc_slice (start stop : option Z) (d : frame T) : result (frame T) :=
    match start, stop with
    | None, None => Ok d
    | _, _ => if monotonic (f_index d)
              then Ok {| f_cols := f_cols d; f_dt := f_dt d;
                         f_rows := filter (fun zr => in_window start stop (fst zr)) (f_rows d) |}
              else Err KeyError
    end.
  (** core/plasma.py 471-472, 485-486: [sc.loc[data.index]]: all the rows of each label in turn,
      KeyError if a label is missing. *)
  Definition loc_labels (idx : list Z) (d : frame T) : result (frame T) :=
    if forallb (fun t => existsb (fun zr => Z.eqb (fst zr) t) (f_rows d)) idx
    then Ok {| f_cols := f_cols d; f_dt := f_dt d;
               f_rows := flat_map (fun t => filter (fun zr => Z.eqb (fst zr) t) (f_rows d)) idx |}
    else Err KeyError.
  (** ditto: core/plasma.py 471-472, 485-486 *)
  Definition loc_if (start stop : option Z) (idx : list Z) (d : frame T) : result (frame T) :=
    match start, stop with None, None => Ok d | _, _ => loc_labels idx d end.

  (** core/plasma.py 441: the default species. *)
  Fixpoint first_unique (seen l : list string) : list string :=
    match l with
    | [] => []
    | x :: r => if mem_str x seen then first_unique seen r else x :: first_unique (x :: seen) r
    end.
  (** ditto: core/plasma.py 441 *)
  Definition default_species (d : frame T) : list string :=
    filter (fun s => negb (String.eqb s "")) (first_unique [] (map kS (f_cols d))).

  (** core/plasma.py 399-493 [load_from_file]; [sckey], [akey] = None for a falsy key. *)
  Definition load_from_file (f : file T) (species : list string) (dkey : string)
             (sckey akey : option string) (sc_frame sc_name : option string) (start stop : option Z)
    : result (plasma T) :=
    data <- read_hdf f dkey ;;
    data <- loc_slice start stop data ;;
    let species := match species with [] => default_species data | _ => species end in
    p <- make_plasma data species None None ;;
    p <- match sckey with
         | None => Ok p
         | Some k =>
             sc <- read_hdf f k ;;
             match sc_name, sc_frame with
             | Some n, Some fr =>
                 sc <- loc_if start stop (f_index data) sc ;;
                 sc <- make_spacecraft sc n fr ;;
                 set_spacecraft p (Some sc)
             | _, _ => Err ValueError
             end
         end ;;
    match akey with
    | None => Ok p
    | Some k =>
        a <- read_hdf f k ;;
        a <- loc_if start stop (f_index data) a ;;
        set_aux p (Some a)
    end.
End Store.
