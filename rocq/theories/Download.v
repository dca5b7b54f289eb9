(** solar_activity: what a download makes of the published tables (sunspot_number/sidc.py 162-295, lisird/lisird.py 43-304), the tables'
    identifiers (base.py 40-86), the curve on a colour bar (sidc.py 492-541) and the joint table (__init__.py 20-53). Reading csv and json
    is not modelled: a row is given by its date and its numbers. *)
From Coq Require Import Reals List String Bool Arith ZArith.
From Flocq Require Import Core.
From Verif Require Import Py PyStr Sort Num LabelTables Labels Solar Activity.
Import ListNotations.
Open Scope list_scope.

(* ---------------------------------------------------------------- identifiers *)
(** sidc.py 183-198 *)
Definition sidc_base : string := "http://www.sidc.be/silso/INFO/".
(** ditto: sidc.py 183-198 *)
Definition sidc_urls : list (string * string) :=
  [("d", "sndtotcsv.php"); ("m", "snmtotcsv.php"); ("m13", "snmstotcsv.php"); ("y", "snytotcsv.php"); ("hd", "sndhemcsv.php");
   ("hm", "snmhemcsv.php"); ("hm13", "snmshemcsv.php")]%string.
(** lisird.py 85-103 *)
Definition lisird_base : string := "http://lasp.colorado.edu/lisird/latis/dap/".
(** ditto: lisird.py 85-103 *)
Definition lisird_urls : list (string * string) :=
  [("Lalpha", "composite_lyman_alpha.jsond"); ("CaK", "cak.jsond"); ("f107-penticton", "penticton_radio_flux.jsond");
   ("f107-noaa", "noaa_radio_flux.jsond"); ("MgII", "composite_mg_index.jsond")]%string.
(** base.py 71-86; [urljoin] of a base ending in "/" and a relative name *)
Definition set_key (url_base : string) (urls : list (string * string)) (key : string) : result (string * string) :=
  match assoc key urls with
  | None => Err NotImplementedError
  | Some e => Ok (key, (url_base ++ e)%string)
  end.

(* ---------------------------------------------------------------- SIDC *)
(** sidc.py 25-159: the columns of each table *)
Definition hemispheric : list string :=
  ["year_fraction"; "total_ssn"; "north_ssn"; "south_ssn"; "total_std"; "north_std"; "south_std"; "n_total"; "n_north"; "n_south"; "definitive"]%string.
(** ditto: sidc.py 25-159 *)
Definition sidc_columns : list (string * list string) :=
  [("d", ["year"; "month"; "day"; "year_fraction"; "ssn"; "std"; "n_obs"; "definitive"]);
   ("m", ["year"; "month"; "year_fraction"; "ssn"; "std"; "n_obs"; "definitive"]);
   ("m13", ["year"; "month"; "year_fraction"; "ssn"; "std"; "n_obs"; "definitive"]);
   ("y", ["year"; "ssn"; "std"; "n_obs"; "definitive"]);
   ("hd", "year" :: "month" :: "day" :: hemispheric);
   ("hm", "year" :: "month" :: hemispheric);
   ("hm13", "year" :: "month" :: hemispheric)]%string.
(** ditto: sidc.py 25-159 *)
Fixpoint columns_of (k : string) (l : list (string * list string)) : option (list string) :=
  match l with [] => None | (a, b) :: r => if String.eqb a k then Some b else columns_of k r end.
(** the last day of a month, for [pd.to_datetime]'s refusal of dates that do not exist. solar_activity/sunspot_number/sidc.py 228-241 *)
Definition leap (y : Z) : bool := (((y mod 4 =? 0) && negb (y mod 100 =? 0)) || (y mod 400 =? 0))%Z.
(** solar_activity/sunspot_number/sidc.py 228-241 *)
Definition month_days (y m : Z) : Z :=
  (if m =? 2 then (if leap y then 29 else 28) else if (m =? 4) || (m =? 6) || (m =? 9) || (m =? 11) then 30 else 31)%Z.
(** solar_activity/sunspot_number/sidc.py 228-241 *)
Definition valid_date (y m d : Z) : bool := ((1 <=? m) && (m <=? 12) && (1 <=? d) && (d <=? month_days y m))%Z.
Section SIDC.
  Context {T : Type} {A : Arith T}.
  Local Open Scope num_scope.
  (** a row of the file: its date and its numbers by column. solar_activity/sunspot_number/sidc.py 228-241 *)
  Record raw := mkraw { rw_y : Z; rw_m : Z; rw_d : Z; rw_v : string -> T }.
  (** solar_activity/sunspot_number/sidc.py 209-270 *)
  Record trow := mktrow { t_time : Z; t_v : string -> T }.
  (** solar_activity/sunspot_number/sidc.py 209-270 *)
  Record table := mktable { tb_cols : list string; tb_rows : list trow }.
  (** [replace(-1, nan)], 206-207. solar_activity/sunspot_number/sidc.py 206-207 *)
  Definition minus1_nan (x : T) : T := if aeqb x (aofZ (-1)) then anan else x.
  (** 228-241; [decimal] is astropy's reading of a decimal year, in ns since 1970. solar_activity/sunspot_number/sidc.py 228-241 *)
  Definition row_time (decimal : T -> Z) (key : string) (r : raw) : result Z :=
    if mem_str key ["m13"; "m"; "hm"; "hm13"]%string
    then if valid_date (rw_y r) (rw_m r) 1 then Ok (days_from_civil (rw_y r) (rw_m r) 1 * day)%Z else Err ValueError
    else if mem_str key ["d"; "hd"]%string
    then if valid_date (rw_y r) (rw_m r) (rw_d r) then Ok (days_from_civil (rw_y r) (rw_m r) (rw_d r) * day)%Z else Err ValueError
    else if String.eqb key "y" then Ok (decimal (rw_v r "year"%string))
    else Err NotImplementedError.
  (** 248-267: the standard error of the mean; hemispheric tables have three. solar_activity/sunspot_number/sidc.py 248-267 *)
  Definition with_errors (key : string) (v : string -> T) (c : string) : T :=
    if String.prefix "h" key
    then if String.eqb c "totalstd_error" then v "total_std"%string / asqrt (v "n_total"%string)
         else if String.eqb c "northstd_error" then v "north_std"%string / asqrt (v "n_north"%string)
         else if String.eqb c "southstd_error" then v "south_std"%string / asqrt (v "n_south"%string)
         else v c
    else if String.eqb c "std_error" then v "std"%string / asqrt (v "n_obs"%string) else v c.
  (** 209-270. solar_activity/sunspot_number/sidc.py 209-270 *)
  Definition download_sidc (decimal : T -> Z) (key : string) (rows : list raw) : result table :=
    match columns_of key sidc_columns with
    | None => Err NotImplementedError
    | Some cols =>
        ts <- mapM (row_time decimal key) rows ;;
        Ok (mktable (if String.prefix "h" key then app cols ["totalstd_error"; "northstd_error"; "southstd_error"]%string
                     else sort_str (app cols ["std_error"%string]))
              (map (fun tr => mktrow (fst tr) (fun c => minus1_nan (with_errors key (rw_v (snd tr)) c))) (combine ts rows)))
    end.
  (** 307-313 [SIDC(key)]: the key, the table, then the kinds of extrema need the column "ssn" (354). solar_activity/sunspot_number/sidc.py 307-313, 354 *)
  Definition sidc (decimal : T -> Z) (key : string) (rows : list raw) : result table :=
    _ <- set_key sidc_base sidc_urls key ;;
    tb <- download_sidc decimal key rows ;;
    if mem_str "ssn" (tb_cols tb) then Ok tb else Err KeyError.

(* ---------------------------------------------------------------- LISIRD *)
  (** a record: its time in milliseconds and its numbers by parameter. solar_activity/lisird/lisird.py 156-176 *)
  Record lrec := mklrec { lr_ms : Z; lr_v : string -> T }.
  (** solar_activity/lisird/lisird.py 156-176 *)
  Record lrow := mklrow { l_t : Z; l_ms : T; l_v : string -> T }.
  (** 115-134; the metadata may lack the entries. solar_activity/lisird/lisird.py 115-134 *)
  Definition lisird_missing (key : string) (mv0 mv1 : option T) : result (option T) :=
    if mem_str key ["CaK"; "MgII"; "f107-noaa"; "f107-penticton"]%string then Ok None
    else if String.eqb key "Lalpha"
    then match mv0, mv1 with
         | Some a, Some b => if aeqb a b then Ok (Some a) else Err NotImplementedError
         | _, _ => Err KeyError
         end
    else Err NotImplementedError.
  (** solar_activity/lisird/lisird.py 115-134 *)
  Definition to_nan (mv : option T) (x : T) : T := match mv with Some m => if aeqb x m then anan else x | None => x end.
  (** 136-154; pandas takes all NaN as one value. solar_activity/lisird/lisird.py 136-154 *)
  Definition same_ms (a b : T) : bool := aeqb a b || (aisnan a && aisnan b).
  (** solar_activity/lisird/lisird.py 136-154 *)
  Definition bad_stamps : list Z := [1061657971200; 1277073820800; 1568685597120]%Z.
  (** solar_activity/lisird/lisird.py 136-154 *)
  Fixpoint first_of_each (seen : list T) (rows : list lrow) : list lrow :=
    match rows with
    | [] => []
    | r :: q => if existsb (same_ms (l_ms r)) seen then first_of_each seen q
                else r :: first_of_each (l_ms r :: seen) q
    end.
  (** solar_activity/lisird/lisird.py 136-154 *)
  Definition verify_epoch (key : string) (rows : list lrow) : list lrow :=
    let kept := first_of_each [] rows in
    if String.eqb key "f107-penticton" then filter (fun r => negb (existsb (fun b => aeqb (l_ms r) (aofZ b)) bad_stamps)) kept else kept.
  (** 156-176. solar_activity/lisird/lisird.py 156-176 *)
  Definition download_lisird (key : string) (mv0 mv1 : option T) (recs : list lrec) : result (list lrow) :=
    mv <- lisird_missing key mv0 mv1 ;;
    Ok (verify_epoch key (map (fun r => mklrow (lr_ms r) (to_nan mv (aofZ (lr_ms r))) (fun c => to_nan mv (lr_v r c))) recs)).
End SIDC.
(** 291-299: the column that stands for the indicator. solar_activity/lisird/lisird.py 291-299 *)
Definition lisird_column : list (string * string) :=
  [("Lalpha", "irradiance"); ("MgII", "mg_index"); ("CaK", "emdx"); ("f107-noaa", "adjusted_flux"); ("f107-penticton", "adjusted_flux")]%string.
(** 291-304 and sidc.py 335-340: missing samples are dropped, then base.py 261-320 *)
Definition dropna (l : list (Z * option R)) : list (Z * option R) := filter (fun s => match snd s with Some _ => true | None => false end) l.
(** solar_activity/lisird/lisird.py 291-304 *)
Definition lisird_interpolate (spline : list (Z * R) -> Z -> R) (key : string) (cols : list string) (data : list (Z * (string -> option R)))
    (target : list Z) : result (list (option R)) :=
  match assoc key lisird_column with
  | None => Err KeyError
  | Some c => if mem_str c cols then interpolate_data spline (dropna (map (fun r => (fst r, snd r c)) data)) target else Err KeyError
  end.
(** 230-245: an indicator of LISIRD has no extrema, [normalized] is None and normalising it is refused. solar_activity/lisird/lisird.py 230-245 *)
Definition lisird_run_normalization : result unit := Err NotImplementedError.
(** solar_activity/lisird/lisird.py 230-245 *)
Definition lisird_extrema : result unit := Err AttributeError.

(* ---------------------------------------------------------------- the curve on a colour bar *)
(** numpy's [round(x, -2)]: to the nearest hundred, halves to even hundreds. solar_activity/sunspot_number/sidc.py 492-509 *)
Definition round_hundreds (x : R) : Z := (100 * ZnearestE (x / 100))%Z.
(** sidc.py 492-509: the samples from t0 to t1 and their places between the limits y0, y1 of the bar; NaN samples, which are neither counted
    nor drawn, are not considered; 508 fails without samples (int of NaN) *)
Definition in_window (t0 t1 : Z) (s : Z * R) : bool := (Z.leb t0 (fst s) && Z.leb (fst s) t1)%bool.
(** ditto: sidc.py 492-509 *)
Definition colorbar_curve (y0 y1 : R) (t0 t1 : Z) (data : list (Z * R)) : result (Z * list (XR * Z)) :=
  match filter (in_window t0 t1) data with
  | [] => Err ValueError
  | s :: r => let s1 := round_hundreds (fold_left Rmax (map snd r) (snd s)) in
              Ok (s1, map (fun p => ((Fin (snd p) / Fin (IZR s1) * (Fin y1 - Fin y0) + Fin y0)%num, fst p)) (s :: r))
  end.
(** 521-522, 535-536: ticks at the ends and the middle of the bar, labelled 0, half and s1 (int truncates the half). solar_activity/sunspot_number/sidc.py 521-522, 535-536 *)
Definition colorbar_ticks (x0 x1 : R) (s1 : Z) : list (R * Z) :=
  [(x0, 0%Z); ((1 / 2 * (x0 + x1))%R, Z.quot s1 2); (x1, s1)].

(* ---------------------------------------------------------------- the joint table *)
(** __init__.py 20-53: columns are joined at every time of any of them; joining needs distinct times in each. MgII's times are cut to their
    days (37). Simplifications: the order of the times is not modelled, the CaK columns are one column, pandas' InvalidIndexError is ValueError
    here and is raised also if the four tables have the same repeated times. *)
Definition series := list (Z * R).
(** ditto: __init__.py 20-53 *)
Fixpoint distinct_times (l : list Z) : bool := match l with [] => true | t :: r => negb (existsb (Z.eqb t) r) && distinct_times r end.
(** ditto: __init__.py 20-53 *)
Definition at_time (s : series) (t : Z) : option R := option_map snd (find (fun p => Z.eqb (fst p) t) s).
(** ditto: __init__.py 20-53 *)
Definition day_of (t : Z) : Z := (t / day * day)%Z.
(** ditto: __init__.py 20-53 *)
Definition all_indices (lalpha ssn mgii cak : series) : result (list (Z * (string -> option R))) :=
  let mg := map (fun p => (day_of (fst p), snd p)) mgii in
  if negb (forallb (fun s => distinct_times (map fst s)) [lalpha; ssn; mg; cak]) then Err ValueError else
  Ok (map (fun t => (t, fun c : string =>
                          if String.eqb c "Lalpha" then at_time lalpha t else if String.eqb c "ssn" then at_time ssn t
                          else if String.eqb c "MgII" then at_time mg t else if String.eqb c "CaK" then at_time cak t else None))
          (nodup Z.eq_dec (app (map fst lalpha) (app (map fst ssn) (app (map fst mg) (map fst cak)))))).
