(** solar_activity/lisird/extrema_calculator.py: the plot of the indicator and its extrema. Extends [ExtremaCalc]. *)
From Coq Require Import List String Bool ZArith.
From Verif Require Import Py Sort ExtremaCalc.
Import ListNotations.
Open Scope string_scope.
Open Scope Z_scope.

(** What is drawn: its name in the legend ("indicator" for the columns drawn by pandas), its colour, whether the points are joined by a
    line (else only marked), and its points (None: missing). solar_activity/lisird/extrema_calculator.py 170-211 *)
Record artist := mkArtist { ar_label : string; ar_colour : string; ar_line : bool; ar_points : list (Z * option Z) }.

(** solar_activity/lisird/extrema_calculator.py 170-173 [_plot_data] *)
Definition data_line (data : list sample) : artist := mkArtist "Rolled" "C0" true data.
(** solar_activity/lisird/extrema_calculator.py 179-182 [_plot_threshold]; [th_text] formats the threshold with five decimals *)
Definition threshold_line (th_text : Z -> string) (th : Z) (data : list sample) : artist :=
  mkArtist (th_text th) "C1" true (map (fun s => (fst s, Some th)) data).
(** solar_activity/lisird/extrema_calculator.py 205-206: the data at the time [t]. Simplification: times are not repeated *)
Definition data_at (data : list sample) (t : Z) : result (Z * option Z) :=
  match find (fun s => fst s =? t) data with Some s => Ok s | None => Err KeyError end.
(** solar_activity/lisird/extrema_calculator.py 199-202 [_plot_threshold_crossings] *)
Definition crossing_marks (cr : list Z) (data : list sample) : result artist :=
  pts <- mapM (data_at data) cr ;; Ok (mkArtist "Changes" "cyan" false pts).
(** solar_activity/lisird/extrema_calculator.py 189-195: the colours alternate from group to group *)
Definition range_colour (n : nat) : string := if Nat.odd n then "darkorange" else "fuchsia".
(** solar_activity/lisird/extrema_calculator.py 184-197 [_plot_extrema_ranges]: [groups] are the samples of each interval *)
Definition range_lines (groups : list (list sample)) : list artist :=
  map (fun ng => mkArtist "indicator" (range_colour (fst ng)) true (snd ng)) (combine (seq 0 (List.length groups)) groups).
(** solar_activity/lisird/extrema_calculator.py 204-211 [_plot_extrema] *)
Definition stars (ext : list (Z * bool)) (data : list sample) : result (list artist) :=
  mx <- mapM (data_at data) (map fst (filter snd ext)) ;;
  mn <- mapM (data_at data) (map fst (filter (fun e => negb (snd e)) ext)) ;;
  Ok [mkArtist "Max" "red" false mx; mkArtist "Min" "limegreen" false mn].
(** solar_activity/lisird/extrema_calculator.py 376-393 [make_plot], after the extrema have been found *)
Definition make_plot (th_text : Z -> string) (th : Z) (data : list sample) (raw0 raw1 : Z) (ext : list (Z * bool)) (on_crossings on_extrema on_ranges : bool) : result (list artist) :=
  cr <- (if on_crossings then rmap (fun a => [a]) (crossing_marks (crossings th None data) data) else Ok []) ;;
  rg <- (if on_ranges then rmap (fun b => range_lines (cut b data)) (bins (crossings th None data) raw0 raw1) else Ok []) ;;
  st <- (if on_extrema then stars ext data else Ok []) ;;
  Ok ([data_line data; threshold_line th_text th data] ++ cr ++ rg ++ st)%list.
(** solar_activity/lisird/extrema_calculator.py 161-166: the names in the legend *)
Definition legend_names (l : list artist) : list string := filter (fun s => negb (String.eqb s "indicator")) (map ar_label l).
(** solar_activity/lisird/extrema_calculator.py 149-156: the window in seconds since 1970. [left] is the left limit matplotlib chose,
    [year_of] and [new_year] give the year of a time and the time a year begins *)
Definition x_window (year_of new_year : Z -> Z) (left : Z) : Z * Z := (new_year (year_of left - 1), 1577923200).
