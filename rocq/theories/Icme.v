(** solar_activity/icme/icmecat.py: the catalogue of interplanetary coronal mass ejections. *)
From Coq Require Import List String Ascii Bool Arith ZArith.
From Verif Require Import Py PyStr Sort.
Import ListNotations.
Open Scope Z_scope.

(** Times in seconds; None is NaT. Comparisons with NaT are False. pandas Timestamp columns and Timedelta of solar_activity/icme/icmecat.py 250-290 *)
Definition time := option Z.
(** pandas Timestamp columns and Timedelta of solar_activity/icme/icmecat.py 250-290 *)
Definition t_le (a b : time) : bool := match a, b with Some x, Some y => x <=? y | _, _ => false end.
(** pandas Timestamp columns and Timedelta of solar_activity/icme/icmecat.py 250-290 *)
Definition t_add (a : time) (d : Z) : time := option_map (fun x => x + d) a.
(** pandas Timestamp columns and Timedelta of solar_activity/icme/icmecat.py 250-290 *)
Definition hours24 : Z := 86400.

(** One row of the catalogue: icmecat_id, sc_insitu (None: NaN), icme_start_time, mo_start_time, mo_end_time.
    The remaining columns (261-263: position) are carried along unchanged and left out. solar_activity/icme/icmecat.py 145-190 *)
Record event := mkE { e_id : string; e_sc : option string; e_start : time; e_mo_start : time; e_mo_end : time }.
(** A row of [intervals]: the event and interval_end. solar_activity/icme/icmecat.py 250-294 *)
Record interval_row := mkI { i_event : event; i_end : time }.

(** _prepare_intervals, 250-290: column operations, each on the mask of rows still missing.
    [has_mo_start]: the column exists (276). solar_activity/icme/icmecat.py 250-294 *)
Definition fill (mask : event * time -> bool) (f : event -> time) (rows : list (event * time)) : list (event * time) :=
  map (fun r => if mask r then (fst r, f (fst r)) else r) rows.
(** pandas Timestamp columns and Timedelta of solar_activity/icme/icmecat.py 250-290 *)
Definition is_nat (t : time) : bool := match t with None => true | Some _ => false end.
(** solar_activity/icme/icmecat.py 250-294 *)
Definition prepare_intervals (has_mo_start : bool) (data : list event) : list interval_row :=
  let r0 := map (fun e => (e, e_mo_end e)) data in                                               (* 272 *)
  let r1 := if has_mo_start then fill (fun r => is_nat (snd r)) (fun e => t_add (e_mo_start e) hours24) r0 else r0 in  (* 275-280 *)
  let r2 := fill (fun r => is_nat (snd r)) (fun e => t_add (e_start e) hours24) r1 in             (* 283-287 *)
  map (fun r => mkI (fst r) (snd r)) r2.

(** str.lower on ASCII. solar_activity/icme/icmecat.py 197-200, 230-233 *)
Definition lower_char (c : ascii) : ascii :=
  let n := nat_of_ascii c in if (Nat.leb 65 n && Nat.leb n 90)%bool then ascii_of_nat (n + 32) else c.
(** solar_activity/icme/icmecat.py 197-200, 230-233 *)
Fixpoint lower (s : string) : string :=
  match s with EmptyString => EmptyString | String c r => String (lower_char c) (lower r) end.
(** solar_activity/icme/icmecat.py 196-211, 229-241: the dict lower-case name -> name; a later spelling replaces an earlier one.
    Series.unique keeps the order of first appearance. *)
Fixpoint uniq (l : list string) : list string :=
  match l with [] => [] | x :: r => x :: filter (fun y => negb (String.eqb x y)) (uniq r) end.
(** ditto: solar_activity/icme/icmecat.py 196-211, 229-241 *)
Definition name_map (names : list string) : list (string * string) := map (fun n => (lower n, n)) names.
(** ditto: solar_activity/icme/icmecat.py 196-211, 229-241 *)
Fixpoint lookup_last (k : string) (m : list (string * string)) : option string :=
  match m with
  | [] => None
  | (k', v) :: r => match lookup_last k r with Some w => Some w | None => if String.eqb k' k then Some v else None end
  end.
(** ditto: solar_activity/icme/icmecat.py 196-211, 229-241 *)
Definition filter_events (data : list event) (spacecraft : string) : result (list event) :=
  names <- mapM (fun e => match e_sc e with Some n => Ok n | None => Err AttributeError end) data ;;  (* NaN has no lower *)
  let actual := match lookup_last (lower spacecraft) (name_map (uniq names)) with Some n => n | None => spacecraft end in
  Ok (List.filter (fun e => match e_sc e with Some n => String.eqb n actual | None => false end) data).

(** solar_activity/icme/icmecat.py 296-316 *)
Definition get_events_in_range (rows : list interval_row) (a b : time) : list interval_row :=
  List.filter (fun r => t_le (e_start (i_event r)) b && t_le a (i_end r))%bool rows.

(** solar_activity/icme/icmecat.py 126-129 *)
Definition strict_intervals (rows : list interval_row) : list interval_row :=
  List.filter (fun r => negb (is_nat (e_mo_end (i_event r)))) rows.
(** np.argsort puts NaT last; np.searchsorted(side="right") compares in the same order. solar_activity/icme/icmecat.py 318-371 *)
Definition t_ord (a b : time) : bool := match a, b with Some x, Some y => x <=? y | _, None => true | None, Some _ => false end.
(** solar_activity/icme/icmecat.py 362 *)
Fixpoint searchsorted_right (starts : list time) (t : time) : nat :=
  match starts with [] => 0%nat | s :: r => if t_ord s t then S (searchsorted_right r t) else 0%nat end.
(** solar_activity/icme/icmecat.py 354-365 for one observation, given the sorted pairs (start, end). *)
Definition contained (sorted : list (time * time)) (t : time) : bool :=
  let idx := searchsorted_right (map fst sorted) t in
  (Nat.ltb 0 idx && existsb (fun e => t_le t e) (firstn idx (map snd sorted)))%bool.
(** ditto: solar_activity/icme/icmecat.py 354-365 *)
Definition pair_leb (p q : time * time) : bool := t_ord (fst p) (fst q).
(** solar_activity/icme/icmecat.py 318-367: the times with their labels. argsort (quicksort) leaves the order of equal starts open: [argsort] is the order it takes. *)
Definition contains {L} (argsort : list (time * time) -> list (time * time)) (rows : list interval_row) (times : list (L * time)) : list (L * bool) :=
  match times with
  | [] => []                                                                                    (* 338-339 *)
  | _ =>
      match rows, strict_intervals rows with
      | [], _ | _, [] => map (fun x => (fst x, false)) times                                     (* 341-347 *)
      | _, st => let sorted := argsort (map (fun r => (e_start (i_event r), e_mo_end (i_event r))) st) in
                 map (fun x => (fst x, contained sorted (snd x))) times
      end
  end.

(** solar_activity/icme/icmecat.py 147-187: the cache file with its modification time, in seconds. (time.time()-mtime)/86400 > 30 taken in exact arithmetic. *)
Definition days30 : Z := 30 * 86400.
(** ditto: solar_activity/icme/icmecat.py 147-187 *)
Record cached := mkCache { c_mtime : Z; c_data : list event }.
(** Loading at time [now] with [served] what the server would send: the data, whether it was downloaded, and the cache afterwards. solar_activity/icme/icmecat.py 145-190 *)
Definition load (cache_dir : bool) (now : Z) (served : list event) (c : option cached) : list event * bool * option cached :=
  if cache_dir then
    match c with
    | Some x => if (days30 <? now - c_mtime x) then (served, true, Some (mkCache now served)) else (c_data x, false, c)
    | None => (served, true, Some (mkCache now served))
    end
  else (served, true, c).

(** solar_activity/icme/icmecat.py 373-413: counts and extremes of [summary]; the durations in seconds. Series.min/max skip NaT; None stands for NaT. *)
Fixpoint t_fold (f : Z -> Z -> Z) (l : list time) : time :=
  match l with
  | [] => None
  | Some x :: r => match t_fold f r with Some y => Some (f x y) | None => Some x end
  | None :: r => t_fold f r
  end.
(** ditto: solar_activity/icme/icmecat.py 373-413 *)
Definition t_min := t_fold Z.min.
(** ditto: solar_activity/icme/icmecat.py 373-413 *)
Definition t_max := t_fold Z.max.
(** ditto: solar_activity/icme/icmecat.py 373-413 *)
Definition t_sub (a b : time) : time := match a, b with Some x, Some y => Some (x - y) | _, _ => None end.
(** ditto: solar_activity/icme/icmecat.py 373-413 *)
Record summary_t := mkSum { n_events : nat; n_strict : nat; range_start : time; range_end : time; dur_min : time; dur_max : time }.
(** ditto: solar_activity/icme/icmecat.py 373-413 *)
Definition summary (rows : list interval_row) : summary_t :=
  let d := map (fun r => t_sub (i_end r) (e_start (i_event r))) rows in
  mkSum (List.length rows) (List.length (strict_intervals rows))
        (t_min (map (fun r => e_start (i_event r)) rows)) (t_max (map i_end rows)) (t_min d) (t_max d).
