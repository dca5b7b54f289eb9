(** core/abundances.py: reference abundances and their ratios. *)
From Coq Require Import List String Bool Arith ZArith.
From Verif Require Import Py PyStr Num.
Import ListNotations.
Open Scope string_scope.
Open Scope list_scope.

(** A row of the table; decimal numbers in thousandths, None where the file has no number (NaN). the columns of core/data/asplund2009.csv and asplund2021.csv as core/abundances.py 109-128 reads them *)
Record entry := mkEntry {
  e_z : Z; e_symbol : string;
  e_ci_ab : option Z; e_ci_un : option Z; e_ph_ab : option Z; e_ph_un : option Z; e_comment : option string }.

(** A Python value given as year or key: an int, a str or something else. the arguments and attributes of core/abundances.py 79-128 *)
Inductive pyval := PInt (z : Z) | PStr (s : string) | POther.

(** the arguments and attributes of core/abundances.py 79-128 *)
Record reference := mkRef { r_year : Z; r_table : list entry; r_has_comments : bool }.

(** core/abundances.py 77-128 [__init__], [_load_data]; [t9] and [t21] are the contents of the two files. The
    comment column exists in the 2021 file only. *)
Definition make_reference (t9 t21 : list entry) (year : pyval) : result reference :=
  match year with
  | PInt z =>
      if Z.eqb z 2009 then Ok (mkRef z t9 false)
      else if Z.eqb z 2021 then Ok (mkRef z t21 true)
      else Err ValueError
  | _ => Err TypeError
  end.

(** core/abundances.py 28-30 *)
Definition resolve_kind (kind : string) : string := if String.eqb kind "Meteorites" then "CI_chondrites" else kind.
(** core/abundances.py 173-182 *)
Definition matches (key : pyval) (e : entry) : bool :=
  match key with PStr s => String.eqb (e_symbol e) s | PInt z => Z.eqb (e_z e) z | POther => false end.

Section Abund.
  Context {T : Type} {A : Arith T} {TT : Transc T}.
  Local Open Scope num_scope.
  (** core/abundances.py 130-182 *)
  Definition num (o : option Z) : T := match o with Some z => aofQ z 1000 | None => anan end.
  (** (Ab, Uncert) of a row in a column group. core/abundances.py 130-182 *)
  Definition measured (kind : string) (e : entry) : T * T :=
    if String.eqb kind "Photosphere" then (num (e_ph_ab e), num (e_ph_un e)) else (num (e_ci_ab e), num (e_ci_un e)).
  (** core/abundances.py 130-182 [get_element] *)
  Definition get_element (r : reference) (key : pyval) (kind : string) : result (T * T) :=
    let kind := resolve_kind kind in
    if negb (String.eqb kind "Photosphere" || String.eqb kind "CI_chondrites") then Err KeyError
    else match key with
         | POther => Err ValueError
         | _ =>
             match filter (matches key) (r_table r) with
             | [] => Err KeyError
             | [e] => Ok (measured kind e)
             | _ => Err AssertionError
             end
         end.
  (** core/abundances.py 184-233 [get_comment]; a duplicated key is a ValueError (the truth value of a Series). *)
  Definition get_comment (r : reference) (key : pyval) : result (option string) :=
    if negb (r_has_comments r) then Ok None
    else match key with
         | POther => Err ValueError
         | _ =>
             match filter (matches key) (r_table r) with
             | [] => Ok None
             | [e] => Ok (match e_comment e with Some "" => None | c => c end)
             | _ => Err ValueError
             end
         end.
  (** core/abundances.py 235-253 *)
  Definition ten : T := aofZ 10.
  (** core/abundances.py 235-253 [_convert_from_dex] *)
  Definition convert_from_dex (ab un : T) : T * T :=
    let mm := tpow ten (ab - aofZ 12) in (mm, (mm * tln ten) * un).
  (** ditto: core/abundances.py 235-253 *)
  Definition nan_to_zero (x : T) : T := if aisnan x then aofZ 0 else x.
  (** core/abundances.py 255-299 [abundance_ratio] *)
  Definition abundance_ratio (r : reference) (numerator denominator : pyval) : result (T * T) :=
    match get_element r numerator "Photosphere" with
    | Err e => Err e
    | Ok (tab, tun) =>
        let tu := nan_to_zero tun in
        if match denominator with PStr "H" => true | _ => false end then Ok (convert_from_dex tab tun)
        else match get_element r denominator "Photosphere" with
             | Err e => Err e
             | Ok (bab, bun) =>
                 let bu := nan_to_zero bun in
                 let rat := tpow ten (tab - bab) in
                 Ok (rat, (rat * tln ten) * asqrt (asq tu + asq bu))
             end
    end.
End Abund.
