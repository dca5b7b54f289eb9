(** plotting/labels/datetime.py, elemental_abundance.py, composition.py and the rest of special.py. As in Labels.v, a label is what
    its user reads: tex, units, path, text. [str.title], [str.lower] and [str.upper] act on ASCII letters here. *)
From Coq Require Import List String Ascii Bool Arith NArith ZArith DecimalString.
From Verif Require Import Py PyStr LabelTables Labels Spacecraft Icme.
Import ListNotations.
Open Scope string_scope.

(** str.title, plotting/labels/datetime.py 169-173, composition.py 51, elemental_abundance.py 84-85 *)
Definition is_upper (c : ascii) : bool := let n := nat_of_ascii c in (Nat.leb 65 n && Nat.leb n 90)%bool.
(** str.title, plotting/labels/datetime.py 169-173, composition.py 51, elemental_abundance.py 84-85 *)
Definition is_lower (c : ascii) : bool := let n := nat_of_ascii c in (Nat.leb 97 n && Nat.leb n 122)%bool.
(** str.title, plotting/labels/datetime.py 169-173, composition.py 51, elemental_abundance.py 84-85 *)
Definition is_letter (c : ascii) : bool := is_upper c || is_lower c.
(** [str.title]: a letter is upper case unless it follows a letter. str.title, plotting/labels/datetime.py 169-173, composition.py 51, elemental_abundance.py 84-85 *)
Fixpoint title_go (after_letter : bool) (s : string) : string :=
  match s with
  | EmptyString => EmptyString
  | String c r => String (if after_letter then lower_char c else upper_ascii c) (title_go (is_letter c) r)
  end.
(** str.title, plotting/labels/datetime.py 169-173, composition.py 51, elemental_abundance.py 84-85 *)
Definition title (s : string) : string := title_go false s.
(** [str(n)] of an integer. plotting/labels/datetime.py 43-61 *)
Definition show_Z (z : Z) : string := NilZero.string_of_int (Z.to_int z).

(* ------------------------------------------------------------ datetime.py *)
(** What pandas' [to_offset] makes of the argument: a count and the name of a unit; None if it is refused or None (datetime.py 63-69). *)
Definition offset := option (Z * string).
(** pandas' [freqstr]. plotting/labels/datetime.py 43-61 *)
Definition freqstr (n : Z) (name : string) : string := if Z.eqb n 1 then name else show_Z n ++ name.
(** datetime.py 9-69 [Timedelta] *)
Definition timedelta_units (o : offset) : string :=
  match o with Some (n, name) => show_Z n ++ " \; \mathrm{" ++ name ++ "}" | None => "???" end.
(** ditto: datetime.py 9-69 *)
Definition timedelta_label (o : offset) (descr : option string) : label :=
  mklabel "\Delta t" (Some (timedelta_units o))
    (mkpath (match o with Some (n, name) => "dt-" ++ freqstr n name | None => "dt-UNK" end))
    (with_description descr ("$\Delta t \; [" ++ timedelta_units o ++ "]$")).
(** datetime.py 72-110 [DateTime]; ArbitraryLabel has no units of its own *)
Definition datetime_label (kind : string) (descr : option string) : label :=
  let tex := "\mathrm{" ++ replace " " " \; " kind ++ "}" in
  mklabel tex None (mkpath (replace " " "-" (lower kind))) (with_description descr ("$" ++ tex ++ "$")).
(** datetime.py 113-179 [Epoch] *)
Definition epoch_label (kind of_thing space : string) (descr : option string) : result label :=
  let small := title kind in let large := title of_thing in
  if negb (mem_str space [" "; "\,"; "\;"; "\:"]) then Err ValueError
  else let tex := "\mathrm{" ++ small ++ " " ++ space ++ " of " ++ space ++ " " ++ large ++ "}" in
       Ok (mklabel tex None (mkpath (small ++ "-of-" ++ large)) (with_description descr ("$" ++ tex ++ "$"))).
(** datetime.py 182-235 [Frequency]; in the f-string of 214, {-1} is the number *)
Definition frequency_units (o : offset) : string := "(" ++ timedelta_units o ++ ")^-1".
(** ditto: datetime.py 182-235 *)
Definition frequency_label (o : offset) (descr : option string) : label :=
  let u := frequency_units o in
  mklabel "\mathrm{Frequency}" (Some u) (mkpath ("frequency_of_" ++ (if Labels.contains "??" u then "UNK" else u)))
    (with_description descr ("$\mathrm{Frequency} \; [" ++ u ++ "]$")).
(** datetime.py 238-266 [January1st] *)
Definition january_label (descr : option string) : label :=
  let tex := replace " " " \; " "\mathrm{January 1^{st} of Year}" in
  mklabel tex None ["January-1st-of-Year"] (with_description descr ("$" ++ tex ++ "$")).

(* ------------------------------------------------------------ elemental_abundance.py *)
(** elemental_abundance.py 10-95 *)
Definition abundance_label (species reference : string) (pct photospheric : bool) (descr : option string) : label :=
  let sp := title species in let ref := title reference in
  let ratio := "\mathrm{" ++ get trans_species sp sp ++ "}/\mathrm{" ++ get trans_species ref ref ++ "}" in
  let tex := if photospheric then ratio ++ ":" ++ ratio ++ "_\mathrm{photo}" else ratio in
  let units := if pct then "\%" else "\#" in
  mklabel tex (Some units) (mkpath (sp ++ "-OV-" ++ ref ++ (if photospheric then "_photospheric-ratio" else "")))
    (with_description descr ("$" ++ tex ++ " \; \left[" ++ units ++ "\right]$")).

(* ------------------------------------------------------------ composition.py *)
(** The charge of an [Ion] as given: a string or an integer. plotting/labels/composition.py 50-65 *)
Inductive charge := ChStr (s : string) | ChInt (z : Z).
(** [int(s)] accepts a sign and digits (simplification: blanks around them and underscores between them are not considered). plotting/labels/composition.py 50-65 *)
Fixpoint all_digits (s : string) : bool :=
  match s with EmptyString => true | String c r => (Nat.leb 48 (nat_of_ascii c) && Nat.leb (nat_of_ascii c) 57) && all_digits r end.
(** plotting/labels/composition.py 50-65 *)
Definition is_int (s : string) : bool :=
  match s with
  | EmptyString => false
  | String c r => if Ascii.eqb c "+" || Ascii.eqb c "-" then negb (String.eqb r "") && all_digits r else all_digits s
  end.
(** composition.py 9-65: the constructor and then reading path; an integer has no [replace] (47) *)
Definition ion (species : string) (ch : charge) (descr : option string) : result label :=
  match ch with
  | ChStr s => ion_label title is_int species s descr
  | ChInt z => Err AttributeError
  end.
(* ------------------------------------------------------------ special.py *)
(** special.py 601-648 [SSN] *)
Definition ssn_kinds : list (string * string) :=
  [("M", "Monthly"); ("M13", "13 Month Smoothed"); ("D", "Daily"); ("Y", "Annual"); ("NM", "Normalized Monthly");
   ("NM13", "Normalized 13 Month Smoothed"); ("ND", "Normalized Daily"); ("NY", "Normalized Yearly")].
(** ditto: special.py 601-648 *)
Definition ssn_label (key : string) (descr : option string) : result label :=
  let k := upper key in
  match assoc k ssn_kinds with
  | None => Err AssertionError
  | Some pretty => let tex := replace " " " \; " ("\mathrm{" ++ pretty ++ " SSN}") in
                   Ok (mklabel tex (Some (get inU "dimless" "")) (mkpath (k ++ "ssn")) (with_description descr ("$" ++ tex ++ " \; [\#]$")))
  end.
(** special.py 792-900 [Xcorr]; None: an operand that is neither a label nor a string *)
Definition xcorr_label (a b : option operand) (method : string) (short_tex : bool) (descr : option string) : result label :=
  match a, b with
  | Some a, Some b =>
      let m := title method in
      head <- (if short_tex then match m with String c _ => Ok ("\rho_{" ++ String c "" ++ "}") | EmptyString => Err IndexError end
               else Ok ("\mathrm{{" ++ m ++ "}}")) ;;
      let tex := collapse_spaces (replace " \, " "\," (replace " " " \, " (head ++ "(" ++ op_tex a ++ "," ++ op_tex b ++ ")"))) in
      Ok (mklabel tex (Some "\#") (mkpath ("Xcorr" ++ m ++ "-" ++ replace " " "-" (op_path a) ++ "-" ++ replace " " "-" (op_path b)))
            (with_description descr ("$" ++ tex ++ " \; [\#]$")))
  | _, _ => Err TypeError
  end.
