(** solarwindpy/plotting/labels/: axis labels. A label is seen through its observable [tex], [units], [path]
    and [str()]. Logging is not modelled. *)
From Coq Require Import List String Ascii Bool Arith NArith.
From Verif Require Import Py PyStr LabelTables.
Import ListNotations.
Open Scope string_scope.

(* ------------------------------------------------------------ Python string methods *)

(** [str.replace(old, new)], left to right, non-overlapping ([old] non-empty). [skip] counts the characters of
    a match still to be dropped. as used in plotting/labels/base.py 545-620, plotting/labels/special.py 40-72, 162-190, 262-290 *)
Fixpoint replace_go (old new s : string) (skip : nat) : string :=
  match s with
  | "" => ""
  | String c r =>
      match skip with
      | S k => replace_go old new r k
      | O => if String.prefix old s then new ++ replace_go old new r (Nat.pred (String.length old))
             else String c (replace_go old new r 0)
      end
  end.
(** as used in plotting/labels/base.py 545-620, plotting/labels/special.py 40-72, 162-190, 262-290 *)
Definition replace (old new s : string) : string := replace_go old new s 0.

(** [sub in s]. as used in plotting/labels/base.py 545-620, plotting/labels/special.py 40-72, 162-190, 262-290 *)
Fixpoint contains (sub s : string) : bool :=
  String.prefix sub s || match s with "" => false | String _ r => contains sub r end.

(** [str.lstrip(chars)], [str.rstrip(chars)], [str.strip(chars)]. as used in plotting/labels/base.py 545-620, plotting/labels/special.py 40-72, 162-190, 262-290 *)
Fixpoint lstrip (chars s : string) : string :=
  match s with "" => "" | String c r => if has_char c chars then lstrip chars r else s end.
(** as used in plotting/labels/base.py 545-620, plotting/labels/special.py 40-72, 162-190, 262-290 *)
Fixpoint rstrip (chars s : string) : string :=
  match s with
  | "" => ""
  | String c r => let r' := rstrip chars r in
                  if (String.eqb r' "" && has_char c chars)%bool then "" else String c r'
  end.
(** as used in plotting/labels/base.py 545-620, plotting/labels/special.py 40-72, 162-190, 262-290 *)
Definition strip (chars s : string) : string := rstrip chars (lstrip chars s).

(** the look-up tables of plotting/labels/base.py 576-581, 619 *)
Fixpoint assoc (k : string) (l : list (string * string)) : option string :=
  match l with [] => None | (a, b) :: r => if String.eqb a k then Some b else assoc k r end.
(** [dict.get(k, default)]. the look-up tables of plotting/labels/base.py 576-581, 619 *)
Definition get (l : list (string * string)) (k default : string) : string :=
  match assoc k l with Some v => v | None => default end.

(** The identifier characters of [string.Template] (ASCII letters, digits, underscore). Simplification: a
    leading digit is not excluded (no template has [$] before a digit). plotting/labels/base.py 581-584 *)
Definition is_id_char (c : ascii) : bool :=
  let n := N_of_ascii c in
  ((N.leb 97 n && N.leb n 122) || (N.leb 65 n && N.leb n 90) || (N.leb 48 n && N.leb n 57) || N.eqb n 95)%bool.
(** [string.Template.safe_substitute]: each [$name] with [name] in [d] is replaced, everything else is kept.
    [pending] is the name being read after a [$], if any. Simplification: the [$$] and [${name}] forms, which
    no template of the package uses, are not given their special meaning. plotting/labels/base.py 581-584 *)
Fixpoint subst_go (d : list (string * string)) (s : string) (pending : option string) : string :=
  let flush n := match assoc n d with Some v => v | None => "$" ++ n end in
  match s with
  | "" => match pending with Some n => flush n | None => "" end
  | String c r =>
      match pending with
      | Some n => if is_id_char c then subst_go d r (Some (n ++ String c ""))
                  else if Ascii.eqb c "$" then flush n ++ subst_go d r (Some "")
                  else flush n ++ String c (subst_go d r None)
      | None => if Ascii.eqb c "$" then subst_go d r (Some "") else String c (subst_go d r None)
      end
  end.
(** plotting/labels/base.py 581-584 *)
Definition safe_substitute (d : list (string * string)) (template : string) : string :=
  subst_go d template None.

(* ------------------------------------------------------------ paths *)

(** A relative [pathlib.Path]: its components. [Path(s)] splits at "/" and drops empty and "." components.
    Simplification: a leading "/" (absolute path) is not represented. pathlib, plotting/labels/base.py 688-693, 730, plotting/labels/special.py 62-63 *)
Definition path := list string.
(** pathlib, plotting/labels/base.py 688-693, 730, plotting/labels/special.py 62-63 *)
Definition mkpath (s : string) : path :=
  filter (fun c => negb (String.eqb c "" || String.eqb c ".")) (split_on "/" s).
(** [str(path)]. pathlib, plotting/labels/base.py 688-693, 730, plotting/labels/special.py 62-63 *)
Definition path_str (p : path) : string := match p with [] => "." | _ => join "/" p end.

(* ------------------------------------------------------------ base.py: species *)

(** base.py:75-78, the alternation: the known names in reverse lexicographic order. *)
Definition species_names : list string := rev (sort_str (map fst trans_species)).

(** base.py:82-107, [re.subn] with a replacement looked up in [_trans_species]: scanning from the left, at each
    position the first alternative that matches wins, and matching resumes after it. *)
Fixpoint species_go (s : string) (skip : nat) : string :=
  match s with
  | "" => ""
  | String c r =>
      match skip with
      | S k => species_go r k
      | O => match find (fun k => String.prefix k s) species_names with
             | Some k => get trans_species k "" ++ species_go r (Nat.pred (String.length k))
             | None => String c (species_go r 0)
             end
      end
  end.
(** base.py:524-543, [TeXlabel.make_species]. *)
Definition make_species (pattern : string) : string := species_go pattern 0.

(* ------------------------------------------------------------ base.py: TeXlabel *)

(** base.py:10, [MCS]. *)
Record mcs := mkmcs { m_ : string; c_ : string; s_ : string }.

(** base.py:551-569, the save path of one label. *)
Definition one_path (l : mcs) : string :=
  let ov := replace "/" "-OV-" in
  strip ", " (strip "{} \\" (strip "_"
    (replace "." "" (replace "__" "_" (replace "{," "{" (replace ",{" "{" (replace "," ""
      (join "_" [ov (m_ l); ov (c_ l); ov (s_ l)])))))))).

(** base.py:571-574. *)
Definition is_err (l : mcs) : bool := contains "_err" (m_ l).
(** plotting/labels/base.py 571-576 *)
Definition base_m (l : mcs) : string := if is_err l then replace "_err" "" (m_ l) else m_ l.

(** base.py:589-612, the clean-up of the TeX. *)
Definition clean_tex (t : string) : string :=
  let r := replace in
  strip " " (strip " " (rstrip "_"
   (r "_{}" "" (r ";}" "}" (r "};}" "}}" (r "};{}" "}" (r ";}" "}" (r "{," "{" (r ",}" "}" (r "{}" ""
   (r "{};" "" (r "{}," "" (r "{{}}" "" (r "_{}" "" (r "()" "" (r "\; {}" "" (r "\; ()" "" t))))))))))))))))).

(** base.py:545-642, [_build_one_label]: TeX, units and path of one label. *)
Definition one_tex (l : mcs) : string :=
  let m := base_m l in
  let d := [("M", get trans_measurement m m); ("C", get trans_component (c_ l) (c_ l)); ("S", make_species (s_ l))] in
  let tex := safe_substitute d (get templates m default_template_string) in
  clean_tex (if is_err l then "\sigma(" ++ tex ++ ")" else tex).
(** plotting/labels/base.py 613-622 *)
Definition one_units (l : mcs) : string :=
  let ukey := if mem_str (c_ l) ["lat"; "colat"; "lon"] then c_ l else base_m l in
  get trans_units ukey "???".

(** base.py:65-73, [_trans_axnorm] for the non-None values. *)
Definition trans_axnorm : list (string * string) :=
  [("c", "Col."); ("r", "Row"); ("t", "Total"); ("d", "Density");
   ("rd", "1D Probability Density"); ("cd", "1D Probability Density")].

(** base.py:397-412, [_format_with_description]: an empty description is ignored. *)
Definition newline : string := String (ascii_of_nat 10) "".
(** plotting/labels/base.py 397-411 *)
Definition with_description (d : option string) (s : string) : string :=
  match d with Some (String c r) => String c r ++ newline ++ s | _ => s end.

(** A label as its user sees it. [l_units = None] when reading [.units] raises AttributeError. the attributes of plotting/labels/base.py 346-431 *)
Record label := mklabel { l_tex : string; l_units : option string; l_path : path; l_str : string }.

(** base.py:432-730, [TeXlabel(mcs0, mcs1, axnorm, new_line_for_units, description)]; [lower]/[upper] are the
    [str] methods. *)
Definition texlabel (lower upper : string -> string) (l0 : mcs) (l1 : option mcs) (axnorm : option string)
    (new_line : bool) (descr : option string) : result label :=
  let axnorm := option_map lower axnorm in
  if negb (match axnorm with None => true | Some a => mem_str a ["c"; "r"; "t"; "d"] end) then Err AssertionError
  else
    let '(tex, units, pth) :=
      match l1 with
      | None => (one_tex l0, one_units l0, mkpath (one_path l0))
      | Some l1 =>
          let u0 := get trans_units (replace "_err" "" (m_ l0)) "???" in
          let u1 := get trans_units (replace "_err" "" (m_ l1)) "???" in
          (one_tex l0 ++ "/" ++ one_tex l1,
           if String.eqb u0 u1 then "\#" else u0 ++ "/" ++ u1,
           mkpath (join "-OV-" [one_path l0; one_path l1]))
      end in
    let '(tex, units, pth) :=
      match axnorm with
      | None => (tex, units, pth)
      | Some a => ("\mathrm{" ++ get trans_axnorm a "" ++ " \; Norm} \; " ++ tex, "\#",
                   app pth [upper a ++ "norm"])
      end in
    let sep := if new_line then "$" ++ newline ++ "$" else "\;" in
    let wu := "$" ++ tex ++ " " ++ sep ++ " \left[" ++ units ++ "\right]$" in
    Ok (mklabel tex (Some units) pth (with_description descr wu)).

(* ------------------------------------------------------------ base.py: comparisons *)

(** base.py:353-369. Python evaluates [a > b] by [__gt__]; [a < b] has no [__lt__] here and falls back on the
    reflected [b.__gt__(a)]; [a <= b] by [__le__], which the code defines with the strict [<]; [a >= b] falls
    back on [b.__le__(a)] ([__geq__]/[__leq__] are not Python protocol names); [==] and [hash] by the string. *)
Definition gt_ (a b : label) : bool := str_ltb (l_str b) (l_str a).
(** plotting/labels/base.py 353-369: only [__gt__], [__le__], [__eq__], [__hash__] are operators ([__geq__], [__leq__] are not) *)
Definition le_ (a b : label) : bool := str_ltb (l_str a) (l_str b).
(** plotting/labels/base.py 353-369: only [__gt__], [__le__], [__eq__], [__hash__] are operators ([__geq__], [__leq__] are not) *)
Definition eq_ (a b : label) : bool := String.eqb (l_str a) (l_str b).
(** plotting/labels/base.py 353-369: only [__gt__], [__le__], [__eq__], [__hash__] are operators ([__geq__], [__leq__] are not) *)
Definition py_gt (a b : label) : bool := gt_ a b.
(** plotting/labels/base.py 353-369: only [__gt__], [__le__], [__eq__], [__hash__] are operators ([__geq__], [__leq__] are not) *)
Definition py_lt (a b : label) : bool := gt_ b a.
(** plotting/labels/base.py 353-369: only [__gt__], [__le__], [__eq__], [__hash__] are operators ([__geq__], [__leq__] are not) *)
Definition py_le (a b : label) : bool := le_ a b.
(** plotting/labels/base.py 353-369: only [__gt__], [__le__], [__eq__], [__hash__] are operators ([__geq__], [__leq__] are not) *)
Definition py_ge (a b : label) : bool := le_ b a.
(** plotting/labels/base.py 353-369: only [__gt__], [__le__], [__eq__], [__hash__] are operators ([__geq__], [__leq__] are not) *)
Definition py_eq (a b : label) : bool := eq_ a b.
(** plotting/labels/base.py 353-369: only [__gt__], [__le__], [__eq__], [__hash__] are operators ([__geq__], [__leq__] are not) *)
Definition py_hash (hash : string -> nat) (a : label) : nat := hash (l_str a).

(* ------------------------------------------------------------ special.py *)

(** special.py:30-71, [ManualLabel]. It has [unit], not [units]. *)
Definition manual_label (tex unit : string) (pth : option string) (descr : option string) : label :=
  let tex := strip "$" tex in
  let unit := strip "$" (get inU unit unit) in
  mklabel tex None (mkpath (match pth with Some p => p | None => replace " " "-" tex end))
    (with_description descr
      (replace "\; []" "" ("$\mathrm{" ++ replace " " " \; " tex ++ "} \; [" ++ unit ++ "]$"))).

(** special.py:126-191, [Count]. *)
Definition count_label (lower upper : string -> string) (norm : option string) (descr : option string) : result label :=
  let norm := option_map lower norm in
  if negb (match norm with None => true | Some a => mem_str a (map fst trans_axnorm) end) then Err AssertionError
  else
    let tex := match norm with
      | None => "\mathrm{Count}"
      | Some a => if mem_str a ["r"; "c"; "t"] then "\mathrm{" ++ get trans_axnorm a "" ++ " Norm Count}"
                  else if mem_str a ["cd"; "rd"] then "\mathrm{1D Probability Density}"
                  else "\mathrm{Probability Density}"
      end in
    let tex := replace " " " \, " tex in
    let pth := match norm with None => ["count"] | Some a => ["count"; upper a ++ "norm"] end in
    Ok (mklabel tex (Some "\#") pth (with_description descr ("$" ++ tex ++ " \; [\#]$"))).

(** special.py:273-286 and 367-379, the comparison part of a file name; [spaces] only in [Probability]. *)
Definition comparison_path (spaces : bool) (cmp : string) : string :=
  let r := replace in
  let p := r "!=" "NEQ" (r "==" "EQ" (r "\eq" "EQ" (r "\neq" "NEQ" (r "\gt" "GT" (r "\leq" "LEQ"
    (r "\geq" "GEQ" (r "\lt" "GT" (r "\gt" "GT" (r "<" "LT" (r ">" "GT" cmp)))))))))) in
  if spaces then r " " "_" p else p.

(** special.py:218-294, [Probability]. *)
Definition probability_label (other : label) (cmp : string) (descr : option string) : label :=
  let tex := replace " " " \, " ("\mathrm{Prob.}(" ++ l_tex other ++ " " ++ cmp ++ ")") in
  mklabel tex (Some "\%")
    (mkpath ("prob-" ++ replace " " "-" (path_str (l_path other)) ++ "-" ++ comparison_path true cmp))
    (with_description descr ("$" ++ tex ++ " \; [\%]$")).

(** special.py:297-387, [CountOther]. *)
Definition count_other_label (other : label) (cmp : string) (new_line : bool) (descr : option string) : label :=
  let tex := replace " " " \, " ("\mathrm{Count.}(" ++ l_tex other ++ " " ++ cmp ++ ")") in
  mklabel tex (Some "\#")
    (mkpath ("cnt-" ++ replace " " "-" (path_str (l_path other)) ++ "-" ++ comparison_path false cmp))
    (with_description descr ("$" ++ tex ++ " " ++ (if new_line then "$" ++ newline ++ "$" else "\;") ++ " [\#]$")).

(** special.py:390-487, [MathFcn]; reading the units of a dimensional function of a unitless label raises. *)
Definition mathfcn_label (fcn : string) (other : label) (dimensionless new_line : bool) (descr : option string)
  : result label :=
  let tex := replace " " " \, " ("\mathrm{" ++ fcn ++ "}(" ++ l_tex other ++ ")") in
  let units := if dimensionless then Some (get inU "dimless" "")
               else option_map (fun u => "\mathrm{" ++ fcn ++ "}\left(" ++ u ++ "\right)") (l_units other) in
  let f := replace "/" "-OV-" (replace "\" "" (replace "}" "" (replace "{" "" (replace "\mathrm" "" fcn)))) in
  match units with
  | None => Err AttributeError
  | Some u => Ok (mklabel tex (Some u) (mkpath (f ++ "-" ++ path_str (l_path other)))
      (with_description descr ("$" ++ tex ++ " " ++ (if new_line then "$" ++ newline ++ "$" else "\;")
                               ++ " \left[" ++ u ++ "\right]$")))
  end.

(** special.py:490-563, [AbsoluteValue]: the units of the wrapped label. *)
Definition abs_label (other : label) (new_line : bool) (descr : option string) : result label :=
  let tex := "\left|" ++ l_tex other ++ "\right|" in
  match l_units other with
  | None => Err AttributeError
  | Some u => Ok (mklabel tex (Some u) (mkpath ("abs-" ++ path_str (l_path other)))
      (with_description descr ("$" ++ tex ++ " " ++ (if new_line then "$" ++ newline ++ "$" else "\;")
                               ++ " \left[" ++ u ++ "\right]$")))
  end.

(** special.py:566-598, [Distance2Sun]. *)
Definition distance2sun_label (lower : string -> string) (units : string) (descr : option string) : result label :=
  let trans := [("rs", "R_{\bigodot}"); ("re", "R_{\oplus}"); ("au", "\mathrm{AU}")] in
  let units := get trans (lower units) (lower units) in
  if negb (mem_str units (app (map snd trans) ["m"; "km"])) then Err NotImplementedError
  else Ok (mklabel "\mathrm{Distance \; to \; Sun}" (Some units) ["distance2sun"]
        (with_description descr ("$\mathrm{Distance \; to \; Sun} \; [\mathrm{" ++ units ++ "}]$"))).

(** An operand of [ComparisonLable]/[Xcorr]: a label or a plain string. plotting/labels/special.py 695-720, 836-843 *)
Inductive operand := Lab (l : label) | Str (s : string).
(** plotting/labels/special.py 695-720, 836-843 *)
Definition op_tex (o : operand) : string := match o with Lab l => l_tex l | Str s => s end.
(** plotting/labels/special.py 695-720, 836-843 *)
Definition op_units (o : operand) : option string := match o with Lab l => l_units l | Str _ => None end.
(** plotting/labels/special.py 695-720, 836-843 *)
Definition op_path (o : operand) : string := match o with Lab l => path_str (l_path l) | Str s => s end.

(** special.py:760-761 and 871-872, [while tex.find(r"\,\,") >= 0: tex = tex.replace(r"\,\,", r"\,")]. *)
Fixpoint collapse (fuel : nat) (t : string) : string :=
  match fuel with
  | O => t
  | S f => if contains "\,\," t then collapse f (replace "\,\," "\," t) else t
  end.
(** plotting/labels/special.py 742-763 *)
Definition collapse_spaces (t : string) : string := collapse (String.length t) t.

(** special.py:651-789, [ComparisonLable] with [fcn=None]: an unknown function name makes the format parser
    fail on None (TypeError). A user-supplied template is not modelled. *)
Definition comparison_label (lower : string -> string) (a b : operand) (fcn_name : string) (descr : option string)
  : result label :=
  units <- (match op_units a, op_units b with
            | Some u, Some v => if String.eqb u v then Ok u else Err ValueError
            | _, _ => Ok "???"
            end) ;;
  match assoc (lower fcn_name) [("subtract", "{$labelA} - {$labelB}"); ("add", "{$labelA} + {$labelB}");
                                ("multiply", "{$labelA} \times {$labelB}")] with
  | None => Err TypeError
  | Some fcn =>
      let tex := collapse_spaces (safe_substitute [("labelA", op_tex a); ("labelB", op_tex b)] fcn) in
      Ok (mklabel tex (Some units)
        (mkpath (fcn_name ++ "-" ++ replace " " "-" (op_path a) ++ "-" ++ replace " " "-" (op_path b)))
        (with_description descr ("$" ++ tex ++ " \; [" ++ units ++ "]$")))
  end.

(* ------------------------------------------------------------ composition.py *)

(** composition.py:9-65, [Ion]; [title] is [str.title], [is_int] tells whether [int(charge)] accepts the string. *)
Definition ion_label (title : string -> string) (is_int : string -> bool) (species charge : string)
    (descr : option string) : result label :=
  if negb (is_int charge) && negb (mem_str charge ["i"; "j"]) then Err ValueError
  else
    let sp := title species in
    let tex := "{" ++ sp ++ "}^{" ++ charge ++ "}" in
    Ok (mklabel tex (Some "\#") (mkpath (sp ++ "_" ++ replace "-" "m" (replace "+" "p" charge)))
         (with_description descr ("$" ++ tex ++ " \; \left[\#\right]$"))).

(** composition.py:68-121, [ChargeStateRatio]. *)
Definition charge_state_ratio (a b : label) (descr : option string) : label :=
  let u := fun l => match l_units l with Some u => u | None => "" end in
  let units := if String.eqb (u a) (u b) then "\#" else u a ++ "/" ++ u b in
  let tex := l_tex a ++ "/" ++ l_tex b in
  mklabel tex (Some units) (mkpath (path_str (l_path a) ++ "-OV-" ++ path_str (l_path b)))
    (with_description descr ("$" ++ tex ++ " \; \left[" ++ units ++ "\right]$")).
