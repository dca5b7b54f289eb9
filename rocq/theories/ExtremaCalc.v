(** solar_activity/lisird/extrema_calculator.py: minima and maxima of an activity index from its threshold crossings. *)
From Coq Require Import List String Bool Arith ZArith.
From Verif Require Import Py Sort.
Import ListNotations.
Open Scope Z_scope.

(** A sample: time (seconds) and value; None is NaN. Values are only compared with each other and with the threshold,
    so integers stand for them. a row of [data], solar_activity/lisird/extrema_calculator.py 133-146 *)
Definition sample := (Z * option Z)%type.

(** set_threshold, 213-239. A plain Python function is applied; anything else is used as it is. np.nanmedian is not an instance
    of types.FunctionType (numpy >= 1.25: _ArrayFunctionDispatcher), so it is not called and comparing with it is a TypeError (313). solar_activity/lisird/extrema_calculator.py 213-239 *)
Inductive threshold_arg := ThNone | ThNumber (z : Z) | ThFunction (f : list sample -> Z).
(** solar_activity/lisird/extrema_calculator.py 213-239 *)
Inductive threshold_val := TvNumber (z : Z) | TvNanmedian.
(** solar_activity/lisird/extrema_calculator.py 213-239 *)
Definition set_threshold (automatic : string -> option Z) (name : string) (a : threshold_arg) (data : list sample) : threshold_val :=
  match a with
  | ThNone => match automatic name with Some z => TvNumber z | None => TvNanmedian end
  | ThNumber z => TvNumber z
  | ThFunction f => TvNumber (f data)
  end.

(** find_threshold_crossings, 309-322. The first diff is NaN, and NaN != 0. solar_activity/lisird/extrema_calculator.py 309-322 *)
Definition high (th : Z) (v : option Z) : bool := match v with Some x => th <? x | None => false end.
(** solar_activity/lisird/extrema_calculator.py 309-322 *)
Definition low (th : Z) (v : option Z) : bool := match v with Some x => x <? th | None => false end.
(** solar_activity/lisird/extrema_calculator.py 309-322 *)
Fixpoint crossings (th : Z) (prev : option (bool * bool)) (data : list sample) : list Z :=
  match data with
  | [] => []
  | (t, v) :: r =>
      let s := (high th v, low th v) in
      let delta := match prev with
                   | None => true
                   | Some p => negb (Bool.eqb (fst s) (fst p)) || negb (Bool.eqb (snd s) (snd p))
                   end in
      match v with
      | Some _ => if delta then t :: crossings th (Some s) r else crossings th (Some s) r
      | None => crossings th (Some s) r                                                         (* dropna *)
      end
  end.

(** cut_data_into_extrema_finding_intervals, 324-340. [raw0], [raw1]: first and last time of the raw index. solar_activity/lisird/extrema_calculator.py 324-340 *)
Definition bins (cr : list Z) (raw0 raw1 : Z) : result (list Z) :=
  match cr with
  | [] => Err IndexError                                                                        (* bins[-1] *)
  | c0 :: _ =>
      let b := if last cr 0 <? raw1 then cr ++ [raw1] else cr in
      let b := if raw0 <? c0 then b ++ [raw0] else b in
      Ok (sort_by Z.leb b)
  end.
(** pd.cut: intervals closed on the right; one group of samples per interval (empty groups included). solar_activity/lisird/extrema_calculator.py 324-340 *)
Fixpoint cut (b : list Z) (data : list sample) : list (list sample) :=
  match b with
  | x :: (y :: _) as r => filter (fun s => (x <? fst s) && (fst s <=? y)) data :: cut r data
  | _ => []
  end.

(** _find_extrema, 250-274, for one group. true stands for "Max". idxmax and idxmin take the first. solar_activity/lisird/extrema_calculator.py 241-274 *)
Definition clean (g : list sample) : list (Z * Z) := flat_map (fun s => match snd s with Some x => [(fst s, x)] | None => [] end) g.
(** solar_activity/lisird/extrema_calculator.py 241-274 *)
Fixpoint best (better : Z -> Z -> bool) (acc : Z * Z) (l : list (Z * Z)) : Z * Z :=
  match l with [] => acc | s :: r => best better (if better (snd s) (snd acc) then s else acc) r end.
(** solar_activity/lisird/extrema_calculator.py 241-274 *)
Definition group_extremum (th : Z) (g : list sample) : result (option (Z * bool)) :=
  match clean g with
  | [] => Ok None                                                                               (* 256-258 *)
  | s :: r =>
      let l := s :: r in
      let nmax := List.length (filter (fun s => th <? snd s) l) in
      let nmin := List.length (filter (fun s => negb (th <? snd s)) l) in
      let maximum := Ok (Some (fst (best (fun a b => b <? a) s r), true)) in
      let minimum := Ok (Some (fst (best (fun a b => a <? b) s r), false)) in
      match nmax, nmin with
      | O, _ => minimum                                                                          (* one kind only *)
      | _, O => maximum
      | 1%nat, 1%nat => Err AssertionError                                                       (* 261-263: both dropped *)
      | 1%nat, _ => minimum
      | _, 1%nat => maximum
      | _, _ => Err AssertionError                                                               (* neither dropped *)
      end
  end.

(** _validate_extrema, 276-307. Names delk1 and viored cannot be set (126-130). solar_activity/lisird/extrema_calculator.py 276-307 *)
Definition tail {A} (l : list A) : list A := match l with [] => [] | _ :: r => r end.          (* iloc[1:] *)
(** solar_activity/lisird/extrema_calculator.py 276-307 *)
Definition trim_max (name : string) (l : list Z) : list Z :=
  if existsb (String.eqb name) ["LymanAlpha"; "f107"; "mg_index"]%string then tail l else l.
(** solar_activity/lisird/extrema_calculator.py 276-307 *)
Definition trim_min (name : string) (l : list Z) : list Z :=
  if existsb (String.eqb name) ["f107"; "sd_70"]%string then removelast l
  else if String.eqb name "sl_70" then tail l else l.
(** solar_activity/lisird/extrema_calculator.py 276-307 *)
Definition separation : Z := 1000 * 86400.
(** solar_activity/lisird/extrema_calculator.py 276-307 *)
Fixpoint far_from_previous (prev : Z) (l : list Z) : list Z :=
  match l with [] => [] | t :: r => if separation <? t - prev then t :: far_from_previous t r else far_from_previous t r end.
(** solar_activity/lisird/extrema_calculator.py 276-307 *)
Definition apart (l : list Z) : result (list Z) :=
  match l with [] => Err IndexError | t :: r => Ok (t :: far_from_previous t r) end.              (* 302-303: iloc[0] *)

(** find_extrema, 362-374; sort_index by time. solar_activity/lisird/extrema_calculator.py 362-374 *)
Definition time_leb (p q : Z * bool) : bool := fst p <=? fst q.
(** solar_activity/lisird/extrema_calculator.py 362-374 *)
Definition pick (k : bool) (l : list (option (Z * bool))) : list Z :=
  flat_map (fun o => match o with Some (t, b) => if Bool.eqb b k then [t] else [] | None => [] end) l.
(** solar_activity/lisird/extrema_calculator.py 362-374 *)
Definition find_extrema (name : string) (th : Z) (data : list sample) (raw0 raw1 : Z) : result (list (Z * bool)) :=
  b <- bins (crossings th None data) raw0 raw1 ;;
  e <- mapM (group_extremum th) (cut b data) ;;
  mx <- apart (trim_max name (pick true e)) ;;
  mn <- apart (trim_min name (pick false e)) ;;
  Ok (sort_by time_leb (map (fun t => (t, true)) mx ++ map (fun t => (t, false)) mn)).

(** format_extrema, 342-360: the table as cycle number -> time, for minima and for maxima. solar_activity/lisird/extrema_calculator.py 342-360 *)
Definition number_from (k : Z) (l : list Z) : list (Z * Z) := combine (map (fun i => k + Z.of_nat i) (seq 0 (List.length l))) l.
(** solar_activity/lisird/extrema_calculator.py 342-360 *)
Definition format_extrema (e : list (Z * bool)) : result (list (Z * Z) * list (Z * Z)) :=
  let mn := map fst (filter (fun x => negb (snd x)) e) in
  let mx := map fst (filter snd e) in
  match mn, mx with
  | a :: _, b :: _ => if b <? a then Ok (number_from 0 mn, number_from (-1) mx) else Ok (number_from 0 mn, number_from 0 mx)
  | _, _ => Err IndexError
  end.
(** The constructor after set_data: threshold, crossings, extrema, table. solar_activity/lisird/extrema_calculator.py 44-66 *)
Definition calculate (automatic : string -> option Z) (name : string) (a : threshold_arg) (data : list sample) (raw0 raw1 : Z)
  : result (list (Z * bool) * (list (Z * Z) * list (Z * Z))) :=
  match set_threshold automatic name a data with
  | TvNanmedian => Err TypeError
  | TvNumber th => e <- find_extrema name th data raw0 raw1 ;; f <- format_extrema e ;; Ok (e, f)
  end.
