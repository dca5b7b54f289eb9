(** fitfunctions/tex_info.py: the text that reports the parameters of a fit on a figure. *)
From Coq Require Import List String Ascii Bool Arith ZArith DecimalString.
From Verif Require Import Py PyStr Labels MoreLabels TexInfo.
Import ListNotations.
Open Scope list_scope.
Open Scope string_scope.

(* ---------------------------------------------------------------- numbers as printed *)
(** A finite number as the formats ".ne" print it (fitfunctions/tex_info.py 557-560): sign, one digit, the digits after the point, the exponent.
    Which digits these are (rounding) is the format's affair. *)
Record sci := mkSci { sc_neg : bool; sc_int : nat; sc_frac : list nat; sc_exp : Z }.
(** ditto: fitfunctions/tex_info.py 557-560 *)
Inductive num := Dec (s : sci) | Nan | Inf (neg : bool).
(** ditto: fitfunctions/tex_info.py 557-560 *)
Fixpoint show_digits (l : list nat) : string := match l with [] => "" | d :: r => String (ascii_of_nat (48 + d)) (show_digits r) end.
(** ditto, the exponent has at least two digits: fitfunctions/tex_info.py 557-560 *)
Definition show_exp (e : Z) : string :=
  (if Z.ltb e 0 then "-" else "+") ++ (if Z.ltb (Z.abs e) 10 then "0" else "") ++ show_Z (Z.abs e).
(** ditto: fitfunctions/tex_info.py 557-560 *)
Definition show_mantissa (s : sci) : string :=
  (if sc_neg s then "-" else "") ++ show_digits [sc_int s] ++ match sc_frac s with [] => "" | f => "." ++ show_digits f end.
(** ditto: fitfunctions/tex_info.py 557-560 *)
Definition show_num (n : num) : string :=
  match n with
  | Dec s => show_mantissa s ++ "e" ++ show_exp (sc_exp s)
  | Nan => "nan"
  | Inf neg => if neg then "-inf" else "inf"
  end.

(* ---------------------------------------------------------------- string methods *)
(** s.split(sep) for a separator of several characters (fitfunctions/tex_info.py 325-328, 333); [skip] characters of a separator are still to be dropped *)
Fixpoint split_go (sep s : string) (skip : nat) : list string :=
  match s with
  | "" => [""]
  | String c r =>
      match skip with
      | S k => split_go sep r k
      | O => if String.prefix sep s then "" :: split_go sep r (Nat.pred (String.length sep))
             else match split_go sep r 0 with h :: t => String c h :: t | [] => [] end
      end
  end.
(** ditto: fitfunctions/tex_info.py 325-328, 333 *)
Definition split_str (sep s : string) : list string := split_go sep s 0.

(* ---------------------------------------------------------------- powers of ten *)
(** fitfunctions/tex_info.py 312-317: the four substitutions *)
Definition pow10 (x : string) : string :=
  replace "-0" "-" (replace "+0" "+" (replace "e-" " \times 10^{-" (replace "e+" " \times 10^{+" x))).
(** fitfunctions/tex_info.py 324-330: close a brace left open on either side of the plus-minus *)
Definition close_brace (x : string) : string := if Nat.ltb (count_char "}" x) (count_char "{" x) then x ++ "}" else x.
(** ditto: fitfunctions/tex_info.py 324-330 *)
Definition close_line (x : string) : string := join "\pm" (map close_brace (split_str "\pm" x)).
(** fitfunctions/tex_info.py 309-330 *)
Definition convert (info : list string) : list string := map close_line (split_on newline (pow10 (join nl info))).

(* ---------------------------------------------------------------- simplification for a paper *)
(** the digits without the zeros at their end, as float keeps no digits (fitfunctions/tex_info.py 225) *)
Fixpoint trim (l : list nat) : list nat :=
  match l with [] => [] | d :: r => match trim r with [] => if Nat.eqb d 0 then [] else [d] | t => d :: t end end.
(** str(float(text)) for the text of a number (fitfunctions/tex_info.py 225): the shortest decimal that is the same double, in positional notation if the
    exponent is from -4 to 15. Simplification: at most 15 digits and no overflow, so that these digits are the given ones. *)
Definition repr_sci (s : sci) : string :=
  (if sc_neg s then "-" else "") ++
  match trim (sc_int s :: sc_frac s) with
  | [] => "0.0"
  | d :: f =>
      let e := sc_exp s in
      if (Z.leb (-4) e && Z.ltb e 16)%bool then
        if Z.ltb e 0 then "0." ++ show_digits (repeat 0%nat (Z.to_nat (- e - 1)) ++ d :: f)%list
        else let n := S (Z.to_nat e) in
             let all := ((d :: f) ++ repeat 0%nat (n - List.length (d :: f)))%list in
             show_digits (firstn n all) ++ "." ++ match skipn n all with [] => "0" | r => show_digits r end
      else show_digits [d] ++ match f with [] => "" | _ => "." ++ show_digits f end ++ "e" ++ show_exp e
  end.
(** reading a text of digits (fitfunctions/tex_info.py 225) *)
Fixpoint read_digits (s : string) : option (list nat) :=
  match s with
  | "" => Some []
  | String c r => let n := nat_of_ascii c in
                  if (Nat.leb 48 n && Nat.leb n 57)%bool then match read_digits r with Some l => Some ((n - 48)%nat :: l) | None => None end else None
  end.
(** reading the text of a number in exponent notation (fitfunctions/tex_info.py 225). Simplification: other numbers float would read ("5", "1_000") do not occur as
    the right-hand side of a line of the report. *)
Definition read_exp (s : string) : option Z :=
  match s with
  | String c r =>
      match NilZero.uint_of_string r with
      | Some u => if Ascii.eqb c "+" then Some (Z.of_int (Decimal.Pos u)) else if Ascii.eqb c "-" then Some (- Z.of_int (Decimal.Pos u))%Z else None
      | None => None
      end
  | "" => None
  end.
(** ditto: fitfunctions/tex_info.py 225 *)
Definition read_mantissa (s : string) : option (bool * nat * list nat) :=
  let '(neg, t) := match s with String "-"%char r => (true, r) | _ => (false, s) end in
  match split_on "."%char t with
  | [i] => match read_digits i with Some [d] => Some (neg, d, []) | _ => None end
  | [i; f] => match read_digits i, read_digits f with Some [d], Some (x :: l) => Some (neg, d, x :: l) | _, _ => None end
  | _ => None
  end.
(** ditto: fitfunctions/tex_info.py 225 *)
Definition read_sci (s : string) : option sci :=
  match split_on "e"%char s with
  | [m; x] => match read_mantissa m, read_exp x with
              | Some (neg, d, f), Some e => Some (mkSci neg d f e)
              | _, _ => None
              end
  | _ => None
  end.
(** str(float(x)), None for ValueError (fitfunctions/tex_info.py 225) *)
Definition float_str (x : string) : option string :=
  match read_sci x with
  | Some s => Some (repr_sci s)
  | None => if mem_str x ["nan"; "inf"; "-inf"] then Some x else None
  end.
(** fitfunctions/tex_info.py 218-232 [_simplify_for_paper], one line *)
Definition simplify1 (x : string) : string :=
  let ii := strip "$" x in
  match split_on "="%char (replace " " "" ii) with
  | a :: b :: _ => match float_str b with Some t => a ++ " = " ++ rstrip "." (rstrip "0" t) | None => ii end
  | _ => ii
  end.
(** fitfunctions/tex_info.py 332-333 *)
Definition strip_uncertainty (x : string) : string := hd "" (split_str "\pm" x).

(* ---------------------------------------------------------------- the report *)
(** What a TeXinfo holds, its numbers already printed: the formula, the parameters under their (translated) names with value and uncertainty, the table of relative
    errors, the number of points, both chi-squares per degree of freedom ("%.2f") and r-squared (fitfunctions/tex_info.py 50-55, 97-177) *)
Record report := mkReport {
  rp_function : string; rp_popt : list (string * (num * num)); rp_rel : string; rp_npts : option nat;
  rp_chisq : string * string; rp_rsq : string }.
(** the arguments of fitfunctions/tex_info.py 253-262 *)
Record options := mkOptions { op_chisq : bool; op_rsq : bool; op_pow10 : bool; op_strip : bool; op_paper : bool; op_npts : bool; op_rel : bool }.
(** one parameter, fitfunctions/tex_info.py 141, 268-269, 557-560 *)
Definition popt_line (p : string * (num * num)) : string := fst p ++ " = " ++ show_num (fst (snd p)) ++ " \pm " ++ show_num (snd (snd p)).
(** the number of points if asked for and known, fitfunctions/tex_info.py 283-287 *)
Definition npts_line (o : options) (r : report) : option string :=
  match op_npts o, rp_npts r with true, Some n => Some ("N_\mathrm{pts} = {" ++ show_Z (Z.of_nat n) ++ "}") | _, _ => None end.
(** fitfunctions/tex_info.py 297-300 *)
Definition chisq_line (r : report) : string :=
  "\chi^2_\nu = {" ++ fst (rp_chisq r) ++ "} \; \; \; \; \; \; \; \; \; \; \; \; \; \; \; \; \chi^2_{\nu;R} = {" ++ snd (rp_chisq r) ++ "}".
(** fitfunctions/tex_info.py 265-307: the lines before they are converted. Simplification: with chisq_dof the fit has a chi-square (otherwise AttributeError). *)
Definition raw_info (o : options) (r : report) : list string :=
  (split_on newline (rp_function r) ++ map popt_line (rp_popt r)
   ++ (if op_rel o then [""; rp_rel r] else [])
   ++ match npts_line o r with Some t => [""; t] | None => [] end
   ++ (if op_chisq o then match npts_line o r with Some _ => [] | None => [""] end ++ [chisq_line r] else []))%list.
(** fitfunctions/tex_info.py 253-348 [_build_fit_parameter_info] *)
Definition parameter_info (o : options) (r : report) : string :=
  let info := raw_info o r in
  let info := if (op_pow10 o && negb (op_paper o))%bool then convert info else info in
  let info := if (op_strip o || op_paper o)%bool then map strip_uncertainty info else info in
  let info := if op_paper o then map simplify1 info else info in
  let info := if op_rsq o then (info ++ [("R^2 = " ++ rp_rsq r)%string])%list else info in
  replace (nl ++ nl ++ nl) (nl ++ nl) (replace "inf" "\infty" (join nl (map final_line info))).
