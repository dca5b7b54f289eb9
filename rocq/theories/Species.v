(** Species strings: parsing and validation shared by Plasma, Ion and AlfvenicTurbulence. *)
From Coq Require Import List String Ascii Bool Arith.
From Verif Require Import Py PyStr.
Import ListNotations.
Open Scope string_scope.
Open Scope py_scope.

(** the separators "+" and "," of species strings (core/plasma.py 505-532, core/base.py [_conform_species]) *)
Definition plus : ascii := "+"%char.
(** the separators "+" and "," of species strings (core/plasma.py 505-532, core/base.py [_conform_species]) *)
Definition comma : ascii := ","%char.

(** A positional argument: a string or some other Python object. the arguments of the checks of core/plasma.py 505-532 *)
Inductive pyarg := PStr (s : string) | POther.
(** the arguments of the checks of core/plasma.py 505-532 *)
Definition arg_str (a : pyarg) : option string :=
  match a with PStr s => Some s | POther => None end.
(** the arguments of the checks of core/plasma.py 505-532 *)
Fixpoint all_strs (l : list pyarg) : option (list string) :=
  match l with
  | [] => Some []
  | PStr s :: r => match all_strs r with Some t => Some (s :: t) | None => None end
  | POther :: _ => None
  end.

(** core/base.py 135-168 [Core._conform_species]: the tuple is modelled as a list. *)
Definition conform_species (args : list pyarg) : result (list string) :=
  match all_strs args with
  | None => Err TypeError                                   (* 156-157 *)
  | Some species =>
      if existsb (has_char comma) species then Err ValueError    (* 158-159 *)
      else if existsb (has_char plus) species && (1 <? List.length species)%nat
      then Err ValueError                                        (* 160-165 *)
      else
        let slist := match species with
                     | [s] => split_on plus s
                     | _ => species
                     end in                                      (* 167 *)
        Ok (sort_str slist)                                      (* 168 *)
  end.

(** core/base.py 171-176 and 244-250: [Core]/[Base._clean_species_for_setting]. *)
Definition clean_species_for_setting (species : list string) : result (list string) :=
  match species with
  | [] => Err ValueError                                    (* 172-175 *)
  | _ => assert (forallb (fun s => negb (has_char plus s)) species) ;;   (* 246-248 *)
         Ok (sort_str species)                              (* 249-250 *)
  end.

(** core/ions.py 99-114 [Ion.set_species] ("+" in species on a string). *)
Definition ion_set_species (s : string) : result string :=
  if has_char plus s then Err ValueError else Ok s.

(** core/plasma.py 505-528 [Plasma._chk_species]; [ions] is the index of [Plasma.ions].
    [Index.any()] on strings is true iff some element is a non-empty string (517). *)
Definition chk_species (ions : list string) (args : list pyarg) : result (list string) :=
  species <- conform_species args ;;                        (* 510 *)
  let minimal := unique_str (List.concat (map (split_on plus) species)) in   (* 511-513 *)
  let unavailable := filter (fun s => negb (mem_str s ions)) minimal in (* 515 *)
  if existsb (fun s => negb (String.eqb s "")) unavailable
  then Err ValueError                                       (* 517-527 *)
  else Ok species.

(** core/alfvenic_turbulence.py 436-447 [AlfvenicTurbulence._clean_species_for_setting]. *)
Definition alf_clean_species (a : pyarg) : result string :=
  match a with
  | POther => Err TypeError                                 (* 437-439 *)
  | PStr s =>
      if (1 <? count_char comma s)%nat then Err ValueError  (* 440-442 *)
      else Ok (join "," (map (fun t => join "+" (sort_str (split_on plus t)))
                             (split_on comma s)))           (* 444-447 *)
  end.
