(** The Spacecraft class (core/spacecraft.py): validation of name, frame and table; distance to the Sun. *)
From Coq Require Import List String Ascii Bool Arith NArith ZArith.
From Verif Require Import Py PyStr Sort Num Species Frame Plasma.
Import ListNotations.
Open Scope string_scope.
Open Scope py_scope.

(** [str.upper], on ASCII letters (simplification: other letters are left alone). core/spacecraft.py 206-207 *)
Definition upper_ascii (c : ascii) : ascii :=
  let n := N_of_ascii c in
  if (N.leb 97 n && N.leb n 122)%bool then ascii_of_N (n - 32)%N else c.
(** core/spacecraft.py 206-207 *)
Fixpoint upper (s : string) : string :=
  match s with EmptyString => EmptyString | String c r => String (upper_ascii c) (upper r) end.

(** [data.xs(m, axis=1, level="M").loc[:, cs]] followed by the assertion on the number of columns
    (core/spacecraft.py 227-231, 236-239, 245-248). A spacecraft table has levels M and C: the third
    component of its keys is "". *)
Definition xs_loc (m : string) (cs : list string) (cols : list key) : result (list key) :=
  if negb (has_label kM m cols) then Err KeyError
  else if negb (forallb (fun c => mem_key (m, c, "") cols) cs) then Err KeyError
  else let l := flat_map (fun c => filter (key_eqb (m, c, "")) cols) cs in
       assert (Nat.eqb (List.length l) (List.length cs)) ;; Ok l.
(** [try: ... except KeyError: pass]. core/spacecraft.py 227-248 *)
Definition xs_optional (m : string) (cs : list string) (cols : list key) : result (list key) :=
  match xs_loc m cs cols with Err KeyError => Ok [] | r => r end.

Section SC.
  Context {T : Type} {A : Arith T}.
  Local Open Scope num_scope.

  (** core/spacecraft.py 217-256 [Spacecraft.set_data], returning the stored table. *)
  Definition sc_set_data (data : frame T) : result (frame T) :=
    if f_empty data then Err ValueError                                  (* base.py 239-240 *)
    else
      p <- xs_loc "pos" ["x"; "y"; "z"] (f_cols data) ;;
      v <- xs_optional "v" ["x"; "y"; "z"] (f_cols data) ;;
      c <- xs_optional "carr" ["lat"; "lon"] (f_cols data) ;;
      assert (f_dt data) ;;
      Ok {| f_cols := sort_by key_leb (p ++ v ++ c)%list; f_dt := true; f_rows := f_rows data |}.

  (** core/spacecraft.py 191-215 [set_frame_name] *)
  Definition set_frame_name (frame_ name : string) : result (string * string) :=
    let f := upper frame_ in let n := upper name in
    if negb (mem_str f ["GSE"; "HCI"]) then Err NotImplementedError
    else if negb (mem_str n ["WIND"; "PSP"]) then Err NotImplementedError
    else Ok (f, n).

  (** core/spacecraft.py 32-80 [Spacecraft.__init__]; base.py 204-206 has already called [set_data]. *)
  Definition make_spacecraft (data : frame T) (name frame_ : string) : result (spacecraft T) :=
    _ <- sc_set_data data ;;
    fn <- set_frame_name frame_ name ;;
    d <- sc_set_data data ;;
    Ok {| sc_data := d; sc_name := snd fn; sc_frame := fst fn |}.

  (** core/units_constants.py 26-28, 187: [au] is scipy's astronomical unit, a parameter. *)
  Definition c_Re : T := aofZ 6378100.
  (** ditto: core/units_constants.py 26-28, 187 *)
  Definition c_Rs : T := aofZ 695508000.
  (** ditto: core/units_constants.py 26-28, 187 *)
  Definition u_distance2sun : T := aofZ 1.

  (** core/spacecraft.py 92-102 [position] *)
  Definition sc_position (r : row T) : vec T := (r ("pos", "x", ""), r ("pos", "y", ""), r ("pos", "z", "")).
  (** core/spacecraft.py 154-184 [distance2sun], one row. [sum(axis=1)] skips NaN. *)
  Definition distance2sun (au : T) (frame_ : string) (r : row T) : result T :=
    let '(x, y, z) := sc_position r in
    let norm (v : vec T) := let '(a, b, c) := v in asqrt (sum_skip [asq a; asq b; asq c]) / u_distance2sun in
    if String.eqb frame_ "GSE" then
      Ok (norm ((x * aofZ (-1)) * c_Re + au, (y * aofZ 1) * c_Re + aofZ 0, (z * aofZ 1) * c_Re + aofZ 0))
    else if String.eqb frame_ "HCI" then Ok (norm (x * c_Rs, y * c_Rs, z * c_Rs))
    else Err NotImplementedError.

  (** core/spacecraft.py 121-139 [velocity], 146-152 [carrington]: which queries are defined. *)
  Definition sc_velocity (sc : spacecraft T) : result (row T -> vec T) :=
    if has_label kM "v" (f_cols (sc_data sc)) &&
       forallb (fun c => mem_key ("v", c, "") (f_cols (sc_data sc))) ["x"; "y"; "z"]
    then Ok (fun r => (r ("v", "x", ""), r ("v", "y", ""), r ("v", "z", "")))
    else Err KeyError.
  (** ditto: core/spacecraft.py 121-139 *)
  Definition sc_carrington (sc : spacecraft T) : result (row T -> T * T) :=
    if has_label kM "carr" (f_cols (sc_data sc)) &&
       forallb (fun c => mem_key ("carr", c, "") (f_cols (sc_data sc))) ["lat"; "lon"]
    then Ok (fun r => (r ("carr", "lat", ""), r ("carr", "lon", "")))
    else Err KeyError.
End SC.
