(** fitfunctions/tex_info.py: math escapes, translation of parameter names, the cached annotation. *)
From Coq Require Import List String Ascii Bool Arith ZArith.
From Verif Require Import Py PyStr.
Import ListNotations.
Open Scope list_scope.
Open Scope string_scope.

(** the characters [$] and newline of tex_info.py 180-196, 389-476 *)
Definition dollar : ascii := "$"%char.
(** the characters [$] and newline of tex_info.py 180-196, 389-476 *)
Definition newline : ascii := "010"%char.
(** the characters [$] and newline of tex_info.py 180-196, 389-476 *)
Definition nl : string := String newline "".

(** tex_info.py 179-196 [_check_and_add_math_escapes] on a string *)
Definition check_math (x : string) : result string :=
  let y := if Nat.eqb (count_char dollar x) 0 then "$" ++ x ++ "$" else x in
  if Nat.even (count_char dollar y) then Ok y else Err ValueError.

(** x.replace("$", ""). tex_info.py 179-196 *)
Fixpoint strip_dollars (s : string) : string :=
  match s with
  | EmptyString => EmptyString
  | String c r => if Ascii.eqb dollar c then strip_dollars r else String c (strip_dollars r)
  end.
(** fitfunctions/tex_info.py 343-344: the lines of the annotation as they are finally put together *)
Definition final_line (x : string) : string := if String.eqb x "" then nl else "$ " ++ strip_dollars x ++ " $".
(** fitfunctions/tex_info.py 446-447: the annotation of a fit without parameters *)
Definition failed_info (tex : string) : string := "$" ++ tex ++ "$" ++ nl ++ nl ++ "Fit Failed".

(** fitfunctions/tex_info.py 234-251 [_add_additional_info]: a list is escaped element by element (in place), joined and checked; a string is taken
    as it is. Returns the new annotation and the caller's list afterwards. *)
Inductive extra := XStr (s : string) | XList (l : list string).
(** ditto: fitfunctions/tex_info.py 234-251 *)
Definition add_additional_info (info : string) (x : extra) : result (string * extra) :=
  match x with
  | XStr s => Ok (info ++ nl ++ s, XStr s)
  | XList l => bind (mapM check_math l) (fun l' => bind (check_math (join nl l')) (fun s => Ok (info ++ nl ++ s, XList l')))
  end.

(* ---------------------------------------------------------------- dictionaries in insertion order *)
Section Dict.
  Context {V : Type}.
  (** dict operations of tex_info.py 68-95, 131-175 *)
  Fixpoint lookup (k : string) (d : list (string * V)) : option V :=
    match d with [] => None | (k', v) :: r => if String.eqb k' k then Some v else lookup k r end.
  (** dict operations of tex_info.py 68-95, 131-175 *)
  Fixpoint remove (k : string) (d : list (string * V)) : list (string * V) :=
    match d with [] => [] | (k', v) :: r => if String.eqb k' k then r else (k', v) :: remove k r end.
  (** dict operations of tex_info.py 68-95, 131-175 *)
  Fixpoint set_item (k : string) (v : V) (d : list (string * V)) : list (string * V) :=
    match d with [] => [(k, v)] | (k', v') :: r => if String.eqb k' k then (k, v) :: r else (k', v') :: set_item k v r end.
  (** [d[k1] = d.pop(k0)], 75-78, 143-146, 160-163. tex_info.py 75-78, 143-146, 160-163 *)
  Definition rename1 (d : list (string * V)) (k : string * string) : result (list (string * V)) :=
    match lookup (fst k) d with
    | None => Err KeyError
    | Some v => Ok (set_item (snd k) v (remove (fst k) d))
    end.
  (** tex_info.py 75-78, 143-146, 160-163 *)
  Fixpoint translate (tr : list (string * string)) (d : list (string * V)) : result (list (string * V)) :=
    match tr with [] => Ok d | k :: r => bind (rename1 d k) (translate r) end.
End Dict.

(* ---------------------------------------------------------------- names. [in] on strings, tex_info.py 234-348 *)
Fixpoint prefixb (p s : string) : bool :=
  match p, s with
  | EmptyString, _ => true
  | String a p', String b s' => Ascii.eqb a b && prefixb p' s'
  | _, EmptyString => false
  end.
(** [in] on strings, tex_info.py 234-348 *)
Fixpoint contains (sub s : string) : bool :=
  prefixb sub s || match s with EmptyString => false | String _ r => contains sub r end.
(** fitfunctions/tex_info.py 67-94 [initial_guess_info] as the text of a table: one line per parameter, its (translated) name in dollars and
    then numbers (here any text). None if there is no guess. *)
Definition guess_table (rows : list (string * string)) : string :=
  join nl (map (fun r => "$" ++ fst r ++ "$" ++ snd r) rows).
(** fitfunctions/tex_info.py 506-522 [set_TeX_argnames]: every name must be a key of popt and be contained in that text. *)
Definition argnames_accepted (popt : list string) (guess : option (list (string * string))) (old : list (string * string))
    (new : list (string * string)) : result bool :=
  bind (match guess with
        | None => Ok None
        | Some rows => rmap (fun r => Some (guess_table r)) (translate old rows)
        end) (fun table =>
  Ok (forallb (fun kv => mem_str (fst kv) popt && match table with None => true | Some t => contains (fst kv) t end) new)).
(** ditto: fitfunctions/tex_info.py 506-522 *)
Definition set_argnames (popt : list string) (guess : option (list (string * string))) (old new : list (string * string))
    : result (list (string * string)) :=
  bind (argnames_accepted popt guess old new) (fun ok => if ok then Ok new else Err ValueError).

(* ---------------------------------------------------------------- the cached annotation *)
(** The object: what the setters set (any type of content) and the cached text, 57-65, 475-476, 478-531. *)
Section Cache.
  Context {C : Type}.
  Variable render : C -> string.
  (** tex_info.py 57-65, 389-531: content, cached [info] and the operations on them *)
  Record texinfo := mkTex { x_content : C; x_cache : option string }.
  (** tex_info.py 57-65, 389-531: content, cached [info] and the operations on them *)
  Inductive tex_op := TSet (c : C) | TBuild | TStr.
  (** A setter stores and leaves the cache; build_info renders and stores; str returns the cache or builds.
      The second component is the text the call returns. tex_info.py 57-65, 389-531: content, cached [info] and the operations on them *)
  Definition tex_step (t : texinfo) (op : tex_op) : texinfo * option string :=
    match op with
    | TSet c => (mkTex c (x_cache t), None)
    | TBuild => (mkTex (x_content t) (Some (render (x_content t))), Some (render (x_content t)))
    | TStr => match x_cache t with
              | Some s => (t, Some s)
              | None => (mkTex (x_content t) (Some (render (x_content t))), Some (render (x_content t)))
              end
    end.
  (** tex_info.py 57-65, 389-531: content, cached [info] and the operations on them *)
  Definition tex_run (ops : list tex_op) (t : texinfo) : texinfo := fold_left (fun s op => fst (tex_step s op)) ops t.
  (** tex_info.py 57-65, 389-531: content, cached [info] and the operations on them *)
  Definition new_tex (c : C) : texinfo := mkTex c None.
End Cache.

(* ---------------------------------------------------------------- precision *)
(** fitfunctions/tex_info.py 533-567 [val_uncert_2_string]: digits printed after the point, from the decimal exponents of value and uncertainty (198-212);
    None for an uncertainty that is not finite. *)
Definition value_digits (value_exp : Z) (uncertainty_exp : option Z) : Z :=
  Z.abs (match uncertainty_exp with Some u => value_exp - u | None => 3 end)%Z.
