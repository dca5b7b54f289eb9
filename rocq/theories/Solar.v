(** solar_activity/base.py: cycle intervals, assignment of times to them, bands about extrema; the sunspot table.
    Times are integers (nanoseconds, as pandas stores them); [None] is NaT. *)
From Coq Require Import List String Bool ZArith.
From Verif Require Import Py PyStr Sort.
Import ListNotations.
Open Scope list_scope.
Open Scope Z_scope.

(** "1d" in nanoseconds, solar_activity/base.py 526-560 *)
Definition day : Z := 86400 * 1000000000.

(* ---------------------------------------------------------------- pandas: Interval, IntervalIndex, cut *)
(** pd.Interval(left, right), closed on the right; the constructor rejects NaT ends and left > right. pandas.Interval as built in solar_activity/base.py 405-450, 555-560 *)
Record ivl := mkI { i_l : Z; i_r : Z }.
(** pandas.Interval as built in solar_activity/base.py 405-450, 555-560 *)
Definition mk_interval (l r : option Z) : result ivl :=
  match l, r with
  | Some l, Some r => if l <=? r then Ok (mkI l r) else Err ValueError
  | _, _ => Err ValueError
  end.
(** pandas.Interval as built in solar_activity/base.py 405-450, 555-560 *)
Definition in_ivl (t : Z) (i : ivl) : bool := (i_l i <? t) && (t <=? i_r i).
(** pandas.Interval as built in solar_activity/base.py 405-450, 555-560 *)
Definition ivl_eqb (a b : ivl) : bool := (i_l a =? i_l b) && (i_r a =? i_r b).
(** pandas.Interval as built in solar_activity/base.py 405-450, 555-560 *)
Definition ivl_leb (a b : ivl) : bool := (i_l a <? i_l b) || ((i_l a =? i_l b) && (i_r a <=? i_r b)).
(** pandas.Interval as built in solar_activity/base.py 405-450, 555-560 *)
Definition left_leb (a b : ivl) : bool := i_l a <=? i_l b.
(** pandas IntervalIndex and cut as used in solar_activity/base.py 456-521, 562-604 *)
Fixpoint is_unique (l : list ivl) : bool :=
  match l with [] => true | a :: r => negb (existsb (ivl_eqb a) r) && is_unique r end.
(** IntervalIndex.is_overlapping (right-closed): after ordering by left ends, some left end is before the preceding right end. pandas IntervalIndex and cut as used in solar_activity/base.py 456-521, 562-604 *)
Fixpoint adj_overlap (l : list ivl) : bool :=
  match l with
  | a :: ((b :: _) as r) => (i_l b <? i_r a) || adj_overlap r
  | _ => false
  end.
(** pandas IntervalIndex and cut as used in solar_activity/base.py 456-521, 562-604 *)
Definition is_overlapping (bins : list ivl) : bool := adj_overlap (sort_by left_leb bins).
(** pd.cut with an IntervalIndex: rejects overlapping bins, gives each time the bin that contains it. pandas IntervalIndex and cut as used in solar_activity/base.py 456-521, 562-604 *)
Definition cut1 (bins : list ivl) (t : option Z) : option ivl :=
  match t with None => None | Some t => find (in_ivl t) bins end.
(** pandas IntervalIndex and cut as used in solar_activity/base.py 456-521, 562-604 *)
Definition pd_cut (bins : list ivl) (times : list (option Z)) : result (list (option ivl)) :=
  if is_overlapping bins then Err ValueError else Ok (map (cut1 bins) times).

(* ---------------------------------------------------------------- IndicatorExtrema *)
(** A row of the extrema table: cycle number, minimum, maximum. The index is taken to have no duplicates. the tables of solar_activity/base.py 370-450 *)
Record extrow := mkX { x_no : Z; x_min : option Z; x_max : option Z }.
(** the tables of solar_activity/base.py 370-450 *)
Record cyc := mkC { c_no : Z; c_rise : ivl; c_fall : option ivl; c_all : ivl }.

(** base.py 422-450, one row of calculate_intervals; [today] is midnight of the current day, 421 *)
Definition row_intervals (today : Z) (tbl : list extrow) (r : extrow) : result cyc :=
  let t1 := match x_max r with Some m => m | None => today end in                          (* 424-428 *)
  let t2 := match find (fun r' => x_no r' =? x_no r + 1) tbl with                          (* 430-440 *)
            | Some r' => x_min r'
            | None => Some (if t1 <? today then today else t1 + 6 * 365 * day)
            end in
  bind (mk_interval (x_min r) (Some t1)) (fun rise =>                                      (* 442-444 *)
  bind (mk_interval (Some t1) t2) (fun fall =>
  bind (mk_interval (x_min r) t2) (fun all =>
  Ok (mkC (x_no r) rise (if i_l fall =? i_r fall then None else Some fall) all)))).        (* 446-450 *)
(** base.py 405-454 *)
Definition calculate_intervals (now : Z) (tbl : list extrow) : result (list cyc) :=
  let today := (now / day) * day in
  mapM (row_intervals today tbl) tbl.

(** base.py 493-509: what the argument [kind] selects. The columns are sorted by name, 452. *)
Inductive kindarg := KDefault | KName (s : string) | KNames (l : list string) | KBad.
(** ditto: base.py 493-509 *)
Definition available_kind : list string := ["Cycle"; "Fall"; "Rise"]%string.
(** ditto: base.py 493-509 *)
Definition select_kinds (k : kindarg) : result (list string) :=
  match k with
  | KDefault => Ok available_kind
  | KName s => if String.eqb s "Edges" then Ok ["Fall"; "Rise"]%string
               else if mem_str s available_kind then Ok [s] else Err ValueError
  | KNames l => if forallb (fun s => mem_str s available_kind) l then Ok l else Err ValueError
  | KBad => Err ValueError
  end.
(** ditto: base.py 493-509 *)
Definition column (s : string) (c : cyc) : option ivl :=
  if String.eqb s "Rise" then Some (c_rise c) else if String.eqb s "Fall" then c_fall c
  else if String.eqb s "Cycle" then Some (c_all c) else None.
(** 511-512: [intervals.loc[tk_cycles]] for a list of cycle numbers. solar_activity/base.py 511-512 *)
Definition select_rows (tk : option (list Z)) (cs : list cyc) : result (list cyc) :=
  match tk with
  | None => Ok cs
  | Some ns => mapM (fun n => match find (fun c => c_no c =? n) cs with Some c => Ok c | None => Err KeyError end) ns
  end.
(** 514: [intervals.stack()] drops the missing ones. solar_activity/base.py 514 *)
Definition stack (ks : list string) (cs : list cyc) : list ivl :=
  flat_map (fun c => flat_map (fun k => match column k c with Some i => [i] | None => [] end) ks) cs.
(** base.py 456-521 *)
Definition cut_spec_by_interval (cs : list cyc) (kind : kindarg) (tk : option (list Z)) (epoch : list (option Z))
    : result (list (option ivl)) :=
  bind (select_kinds kind) (fun ks =>
  bind (select_rows tk cs) (fun rows =>
  let ii := sort_by ivl_leb (stack ks rows) in
  if is_unique ii then pd_cut ii epoch else Err ValueError)).

(* ---------------------------------------------------------------- bands *)
(** One band: cycle number, kind, interval. solar_activity/base.py 526-560 *)
Record band := mkB { b_no : Z; b_kind : string; b_ivl : ivl }.
(** base.py 540: [self.data.stack()] drops NaT; Min before Max *)
Definition extrema_list (tbl : list extrow) : list (Z * string * Z) :=
  flat_map (fun r => (match x_min r with Some t => [(x_no r, "Min"%string, t)] | None => [] end) ++
                     (match x_max r with Some t => [(x_no r, "Max"%string, t)] | None => [] end)) tbl.
(** base.py 526-560; [dt] is the list of widths *)
Definition calculate_extrema_bands (tbl : list extrow) (dt : list Z) : result (list band) :=
  bind (match dt with [d] => Ok (d, d) | [dl; dr] => Ok (dl, dr) | _ => Err ValueError end) (fun w =>
  mapM (fun e => let '(n, k, t) := e in
          bind (mk_interval (Some (t - fst w)) (Some (t + snd w))) (fun i => Ok (mkB n k i))) (extrema_list tbl)).
(** base.py 562-604. [index_name] is the name of the table's index: line 601 uses the column "Number". The label "N-kind"
    is the pair (N, kind). A row or kind that is not in the table is a KeyError. *)
Definition cut_about_extrema_bands (index_name : string) (bands : list band) (tk : option (list Z)) (kinds : option (list string))
    (epoch : list (option Z)) : result (list (option ivl * option (Z * string))) :=
  bind (match tk with
        | None => Ok bands
        | Some ns => if forallb (fun n => existsb (fun b => b_no b =? n) bands) ns
                     then Ok (flat_map (fun n => filter (fun b => b_no b =? n) bands) ns) else Err KeyError
        end) (fun bs =>
  let ks := match kinds with None => ["Min"; "Max"]%string | Some l => l end in
  if negb (forallb (fun k => existsb (fun b => String.eqb (b_kind b) k) bands) ks) then Err KeyError else
  let sel := filter (fun b => mem_str (b_kind b) ks) bs in
  bind (pd_cut (sort_by ivl_leb (map b_ivl sel)) epoch) (fun cut =>
  if negb (String.eqb index_name "Number") then Err KeyError else
  Ok (map (fun c => (c, match c with
                        | None => None
                        | Some i => option_map (fun b => (b_no b, b_kind b)) (find (fun b => ivl_eqb (b_ivl b) i) sel)
                        end)) cut))).

(* ---------------------------------------------------------------- sidc.py *)
(** Days since 1970-01-01 of a date of the (proleptic) Gregorian calendar. the dates of sunspot_number/ssn_extrema.csv, read by sidc.py 544-560 *)
Definition days_from_civil (y m d : Z) : Z :=
  let y' := if m <=? 2 then y - 1 else y in
  let era := y' / 400 in
  let yoe := y' - era * 400 in
  let mp := (m + 9) mod 12 in
  let doy := (153 * mp + 2) / 5 + d - 1 in
  let doe := yoe * 365 + yoe / 4 - yoe / 100 + doy in
  era * 146097 + doe - 719468.
(** the dates of sunspot_number/ssn_extrema.csv, read by sidc.py 544-560 *)
Definition on_date (y m : Z) : option Z := Some (days_from_civil y m 1 * day).
(** the dates of sunspot_number/ssn_extrema.csv, read by sidc.py 544-560 *)
Definition xrow (n y0 m0 y1 m1 : Z) : extrow := mkX n (on_date y0 m0) (on_date y1 m1).
(** sunspot_number/ssn_extrema.csv 46-71, read by sidc.py 544-555 *)
Definition ssn_extrema : list extrow := [
  xrow 1 1755 2 1761 6; xrow 2 1766 6 1769 9; xrow 3 1775 6 1778 5; xrow 4 1784 9 1788 2; xrow 5 1798 4 1805 2;
  xrow 6 1810 7 1816 5; xrow 7 1823 5 1829 11; xrow 8 1833 11 1837 3; xrow 9 1843 7 1848 2; xrow 10 1855 12 1860 2;
  xrow 11 1867 3 1870 8; xrow 12 1878 12 1883 12; xrow 13 1890 3 1894 1; xrow 14 1902 1 1906 2; xrow 15 1913 7 1917 8;
  xrow 16 1923 8 1928 4; xrow 17 1933 9 1937 4; xrow 18 1944 2 1947 5; xrow 19 1954 4 1958 3; xrow 20 1964 10 1968 11;
  xrow 21 1976 3 1979 12; xrow 22 1986 9 1989 11; xrow 23 1996 8 2001 11; xrow 24 2008 12 2014 4; xrow 25 2019 12 2030 12].
(** sidc.py 286-290: the cycle number of each time *)
Definition cycle_of (cs : list cyc) (t : Z) : option Z :=
  option_map c_no (find (fun c => in_ivl t (c_all c)) cs).

(** A sample of the sunspot record: time and sunspot number. Only comparisons with half the cycle's maximum are made, so the
    number is any integer multiple of a unit (a finite set of floats); None is NaN. sunspot_number/sidc.py 342-391 *)
Record sample := mkS { s_t : Z; s_ssn : option Z }.
(** sunspot_number/sidc.py 342-391 *)
Definition lookup_row (n : Z) (tbl : list extrow) : option extrow := find (fun r => x_no r =? n) tbl.
(** 377-383: the edge written for a sample of cycle [k]. sunspot_number/sidc.py 377-383 *)
Definition edge_of (tbl : list extrow) (k : Z) (s : sample) : option string :=
  match lookup_row k tbl with
  | Some r => match x_max r with
              | Some m => if s_t s <=? m then Some "Rise"%string else Some "Fall"%string
              | None => None
              end
  | None => None
  end.
(** Series.max without NaN. sunspot_number/sidc.py 355-364 *)
Fixpoint zmax (l : list (option Z)) : option Z :=
  match l with
  | [] => None
  | None :: r => zmax r
  | Some x :: r => match zmax r with Some m => Some (Z.max x m) | None => Some x end
  end.
(** 355-364: the extremum written for a sample of the cycle [k] whose samples are [g]; (n, kind) is "n-kind". sunspot_number/sidc.py 355-364 *)
Definition extremum_of (tbl : list extrow) (k : Z) (g : list sample) (s : sample) : option (Z * string) :=
  match s_ssn s, zmax (map s_ssn g) with
  | Some x, Some top =>
      if top <=? 2 * x then Some (k, "Max"%string)                                          (* g >= 0.5 * g.max() *)
      else match lookup_row k tbl with
           | Some r => match x_max r with
                       | Some m => if s_t s <=? m then Some (k, "Min"%string) else Some (k + 1, "Min"%string)
                       | None => None
                       end
           | None => None
           end
  | _, _ => None
  end.
(** 342-387: both columns, for each sample of the record. A cycle with data but without a row would be a KeyError; the cycle
    numbers come from the same table, so it cannot occur. sunspot_number/sidc.py 342-391 *)
Definition group (cs : list cyc) (k : Z) (data : list sample) : list sample :=
  filter (fun s => match cycle_of cs (s_t s) with Some k' => k' =? k | None => false end) data.
(** sunspot_number/sidc.py 370-391 *)
Definition calculate_edge (tbl : list extrow) (cs : list cyc) (data : list sample) : list (option string) :=
  map (fun s => match cycle_of cs (s_t s) with Some k => edge_of tbl k s | None => None end) data.
(** sunspot_number/sidc.py 342-368 *)
Definition calculate_extrema_kind (tbl : list extrow) (cs : list cyc) (data : list sample) : list (option (Z * string)) :=
  map (fun s => match cycle_of cs (s_t s) with Some k => extremum_of tbl k (group cs k data) s | None => None end) data.
