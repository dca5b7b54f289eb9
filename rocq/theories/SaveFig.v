(** plotting/tools.py [save]: writing a figure to disk, with the stamp of author and time. *)
From Coq Require Import List String Ascii Bool.
From Verif Require Import Py PyStr.
Import ListNotations.
Open Scope string_scope.
Open Scope list_scope.

(** The last "." of a name: what is before and after it (str.rfind, as pathlib uses it; plotting/tools.py 133, 137, 152) *)
Fixpoint last_dot (s : string) : option (string * string) :=
  match s with
  | EmptyString => None
  | String c r =>
      match last_dot r with
      | Some (b, a) => Some (String c b, a)
      | None => if Ascii.eqb c "." then Some (EmptyString, r) else None
      end
  end.
(** pathlib's [with_suffix] on the last component, plotting/tools.py 137, 152: a suffix starts at the last dot that is neither
    first nor last. Simplification: the rule of CPython up to 3.12; a name without component is a ValueError. *)
Definition with_suffix (suf name : string) : result string :=
  if String.eqb name "" then Err ValueError
  else match last_dot name with
       | Some (b, a) => if String.eqb b "" || String.eqb a "" then Ok (name ++ suf)%string else Ok (b ++ suf)%string
       | None => Ok (name ++ suf)%string
       end.

(** [spath]: directory and last component; a file of the disk has the same shape (plotting/tools.py 118) *)
Definition spath := (string * string)%type.
(** equality of two file names (the file system of plotting/tools.py 136-156) *)
Definition path_eqb (p q : spath) : bool := String.eqb (fst p) (fst q) && String.eqb (snd p) (snd q).
(** What is drawn on a figure, as a list of texts; the files written, each with what it shows (plotting/tools.py 136-156).
    Simplification: only the figure's elements matter, not their layout or format. *)
Definition drawing := list string.
(** the files and what they show; the newest entry counts (plotting/tools.py 136-156) *)
Definition disk := list (spath * drawing).
(** reading such a file (plotting/tools.py 136-156) *)
Fixpoint shown (d : disk) (p : spath) : option drawing :=
  match d with [] => None | (q, x) :: r => if path_eqb q p then Some x else shown r p end.

(** The arguments of a call of [save] on the figure numbered [c_fig] at time [c_now], plotting/tools.py 69-79.
    Simplification: the figure is a Figure (or an Axes, 114-115) and [spath] a Path (117-118). *)
Record call := mkCall { c_fig : nat; c_path : spath; c_info : bool; c_pdf : bool; c_png : bool; c_now : string }.
(** the figures and the disk (plotting/tools.py 69-159) *)
Record session := mkSession { s_figs : nat -> drawing; s_disk : disk }.

(** plotting/tools.py 148 *)
Definition stamp (now : string) : string := ("B. L. Alterman " ++ now)%string.

(** [fig.text(...)], plotting/tools.py 149 *)
Definition add_text (t : string) (f : nat) (s : session) : session :=
  mkSession (fun g => if Nat.eqb g f then s_figs s g ++ [t] else s_figs s g) (s_disk s).

(** [fig.savefig(spath.with_suffix(suf))], plotting/tools.py 136-141, 151-156; [isdir]: the directories that exist *)
Definition savefig (isdir : string -> bool) (suf : string) (p : spath) (f : nat) (s : session) : result session :=
  n <- with_suffix suf (snd p) ;;
  if isdir (fst p) then Ok (mkSession (s_figs s) (((fst p, n), s_figs s f) :: s_disk s)) else Err FileNotFoundError.

(** plotting/tools.py 69-159 [save]: the exception, if any, and what is left behind in either case *)
Definition save (isdir : string -> bool) (c : call) (s : session) : option exn * session :=
  let after_pdf := if c_pdf c then savefig isdir ".pdf" (c_path c) (c_fig c) s else Ok s in
  match after_pdf with
  | Err e => (Some e, s)
  | Ok s1 =>
      if c_png c then
        let s2 := if c_info c then add_text (stamp (c_now c)) (c_fig c) s1 else s1 in
        match savefig isdir ".png" (c_path c) (c_fig c) s2 with
        | Err e => (Some e, s2)
        | Ok s3 => (None, s3)
        end
      else (None, s1)
  end.
(** a program that calls [save] again and again, whether or not a call failed (plotting/tools.py 69-159) *)
Definition saves (isdir : string -> bool) (cs : list call) (s : session) : session :=
  fold_left (fun s c => snd (save isdir c s)) cs s.
