(** reproducibility.py: which code an analysis is said to have been made with. *)
From Coq Require Import List String Ascii Bool.
From Verif Require Import Py PyStr.
Import ListNotations.
Open Scope string_scope.
Open Scope list_scope.

(** Files by path: a commit, the index (staging area) or what is on disk (git, as called in reproducibility.py 30-59) *)
Definition files := list (string * string).
(** the contents of a path, None if it is absent (git, as called in reproducibility.py 42-49) *)
Fixpoint content (f : files) (p : string) : option string :=
  match f with [] => None | (q, x) :: r => if String.eqb q p then Some x else content r p end.
(** writing and removing a path (git, as called in reproducibility.py 42-49) *)
Definition remove (p : string) (f : files) : files := filter (fun e => negb (String.eqb (fst e) p)) f.
(** writing a path (git, as called in reproducibility.py 42-49) *)
Definition put (p x : string) (f : files) : files := (p, x) :: remove p f.
(** equality of two optional contents (git diff, reproducibility.py 44) *)
Definition same (a b : option string) : bool :=
  match a, b with Some x, Some y => String.eqb x y | None, None => true | _, _ => false end.

(** A repository: the commit checked out with its name (None before the first commit), the branch (None: detached),
    the index and the working tree (git, as called in reproducibility.py 30-59) *)
Record repo := mkRepo { r_head : option string; r_branch : option string; r_commit : files; r_index : files; r_work : files }.

(** [git diff --quiet], reproducibility.py 42-49: status 0 if every path of the index is on disk as it is in the index.
    Simplification: no intent-to-add entries, submodules, attributes or filters. *)
Definition diff_quiet (r : repo) : bool := forallb (fun e => same (content (r_work r) (fst e)) (content (r_index r) (fst e))) (r_index r).

(** What a user does between two reports (the repository read by reproducibility.py 9-73); [Commit sha] makes the index the new commit. *)
Inductive action := Edit (p x : string) | Delete (p : string) | Stage (p : string) | Unstage (p : string) | Commit (sha : string).
(** the effect of such an action (git; the repository read by reproducibility.py 9-73) *)
Definition act (r : repo) (a : action) : repo :=
  match a with
  | Edit p x => mkRepo (r_head r) (r_branch r) (r_commit r) (r_index r) (put p x (r_work r))
  | Delete p => mkRepo (r_head r) (r_branch r) (r_commit r) (r_index r) (remove p (r_work r))
  | Stage p => mkRepo (r_head r) (r_branch r) (r_commit r)
                 (match content (r_work r) p with Some x => put p x (r_index r) | None => remove p (r_index r) end) (r_work r)
  | Unstage p => mkRepo (r_head r) (r_branch r) (r_commit r)
                 (match content (r_commit r) p with Some x => put p x (r_index r) | None => remove p (r_index r) end) (r_work r)
  | Commit sha => mkRepo (Some sha) (r_branch r) (r_index r) (r_index r) (r_work r)
  end.
(** a history of them (the repository read by reproducibility.py 9-73) *)
Definition acts (l : list action) (r : repo) : repo := fold_left act l r.

(** What a path names (the argument of reproducibility.py 9; 22-27) *)
Inductive node := Missing | PlainFile | Directory.
(** A directory as the list of its components, innermost first; [w_repo]: the directories that hold a repository
    (reproducibility.py 22-27). Simplification: git's environment variables and ceiling directories are not set. *)
Definition place := list string.
(** the machine: is git installed, what is where (reproducibility.py 22-65) *)
Record world := mkWorld { w_git : bool; w_node : place -> node; w_repo : place -> option repo }.

(** git looks for the repository from the working directory upwards (reproducibility.py 33, 45, 54) *)
Fixpoint enclosing (w : world) (p : place) : option repo :=
  match w_repo w p with
  | Some r => Some r
  | None => match p with [] => None | _ :: up => enclosing w up end
  end.

(** reproducibility.py 67-73, without the path *)
Record git_info := mkInfo { g_sha : string; g_short : string; g_dirty : option bool; g_branch : string }.
(** reproducibility.py 61-65 *)
Definition unknown : git_info := mkInfo "unknown" "unknown" None "unknown".

(** reproducibility.py 9-73 [get_git_info]: the working directory must exist (FileNotFoundError, caught) and be a directory
    (NotADirectoryError, not caught); no git is a FileNotFoundError, no repository or no commit a CalledProcessError *)
Definition get_git_info (w : world) (p : place) : result git_info :=
  match w_node w p with
  | Missing => Ok unknown
  | PlainFile => Err NotADirectoryError
  | Directory =>
      if w_git w then
        match enclosing w p with
        | None => Ok unknown
        | Some r =>
            match r_head r with
            | None => Ok unknown
            | Some sha => Ok (mkInfo sha (substring 0 7 sha) (Some (negb (diff_quiet r)))
                                (match r_branch r with Some b => b | None => "HEAD" end))
            end
        end
      else Ok unknown
  end.

(** reproducibility.py 129-143 [get_citation_string]; [version], [python]: 99-100 *)
Definition get_citation_string (w : world) (p : place) (version python : string) : result string :=
  g <- get_git_info w p ;;
  Ok ("Analysis performed with solarwindpy " ++ version ++ " (commit " ++ g_short g
      ++ (match g_dirty g with Some true => " (with local modifications)" | _ => "" end)
      ++ ") using Python " ++ python ++ ".")%string.
(** reproducibility.py 119-120 [print_info]: the line of warning *)
Definition warns (g : git_info) : bool := match g_dirty g with Some true => true | _ => false end.
