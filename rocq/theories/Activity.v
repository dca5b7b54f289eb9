(** solar_activity/base.py 261-358 and sunspot_number/sidc.py 400-490: interpolation, normalisation by cycle, bands of sunspot number. *)
From Coq Require Import Reals List String Bool ZArith.
From Verif Require Import Py PyStr Num Solar.
Import ListNotations.
Open Scope list_scope.

(* ---------------------------------------------------------------- normalisation *)
Section Norm.
  Context {T : Type} {A : Arith T}.
  Local Open Scope num_scope.
  (** Series.max/min/mean/std: NaN skipped, NaN if nothing is left; std has ddof = 1. pandas reductions used in sidc.py 420-433 *)
  Definition clean (l : list T) : list T := filter (fun x => negb (aisnan x)) l.
  (** pandas reductions used in sidc.py 420-433 *)
  Definition series_max (l : list T) : T :=
    match clean l with [] => anan | x :: r => fold_left (fun m y => if altb m y then y else m) r x end.
  (** pandas reductions used in sidc.py 420-433 *)
  Definition series_min (l : list T) : T :=
    match clean l with [] => anan | x :: r => fold_left (fun m y => if altb y m then y else m) r x end.
  (** pandas reductions used in sidc.py 420-433 *)
  Definition series_mean (l : list T) : T := sum_strict (clean l) / aofZ (Z.of_nat (List.length (clean l))).
  (** pandas reductions used in sidc.py 420-433 *)
  Definition series_std (l : list T) : T :=
    asqrt (sum_strict (map (fun x => asq (x - series_mean l)) (clean l)) / aofZ (Z.of_nat (List.length (clean l)) - 1)).
  (** sidc.py 414-440 *)
  Inductive norm_by := ByMax | ByZscore | ByFeature.
  (** sidc.py 420-433: the normalised value of [x] in the group [g] *)
  Definition norm1 (by_ : norm_by) (g : list T) (x : T) : T :=
    match by_ with
    | ByMax => x / series_max g
    | ByZscore => (x - series_mean g) / series_std g
    | ByFeature => (x - series_min g) / (series_max g - series_min g)
    end.
  (** sidc.py 400-412 and 435-438: each sample is normalised with the samples of its own cycle; a sample in no cycle is left out
      and becomes NaN when the column is stored. *)
  Definition cycle_values (cs : list cyc) (c : cyc) (data : list (Z * T)) : list T :=
    map snd (filter (fun s => in_ivl (fst s) (c_all c)) data).
  (** ditto: sidc.py 400-412 and 435-438 *)
  Definition run_normalization (by_ : norm_by) (cs : list cyc) (data : list (Z * T)) : list T :=
    map (fun s => match find (fun c => in_ivl (fst s) (c_all c)) cs with
                  | Some c => norm1 by_ (cycle_values cs c data) (snd s)
                  | None => anan
                  end) data.
End Norm.

(* ---------------------------------------------------------------- bands of sunspot number *)
(** sidc.py 453-490: [np.arange(0, max, 2 dssn)] has ceil(max / (2 dssn)) points; the band of a value is the index of the
    half-open interval (mid - dssn, mid + dssn] that contains it. *)
Definition ceil_nat (x : R) : nat := Z.to_nat (- Int_part (- x)).
(** ditto: sidc.py 453-490 *)
Definition ssn_band (dssn top x : R) : option nat :=
  find (fun i => Rltb (2 * INR i * dssn - dssn) x && Rleb x (2 * INR i * dssn + dssn))%R (seq 0 (ceil_nat (top / (2 * dssn)))).
(** ditto: sidc.py 453-490 *)
Definition cut_spec_by_ssn_band (key : string) (dssn : R) (data : list R) (interpolated : option (list R)) : result (list (option nat)) :=
  if String.eqb key "nssn" && Rleb 1 dssn then Err ValueError else
  match data with
  | [] => Err ValueError
  | x :: r => match interpolated with
              | None => Err AttributeError
              | Some l => Ok (map (ssn_band dssn (fold_left Rmax r x)) l)
              end
  end.

(* ---------------------------------------------------------------- interpolation *)
(** base.py 261-320. [spline] is what scipy's InterpolatedUnivariateSpline evaluates (it extrapolates); it needs strictly
    increasing abscissae and at least four points. None in the source is NaN. Times: integers. *)
Section Interp.
  Variable spline : list (Z * R) -> Z -> R.
  (** solar_activity/base.py 262-321 [interpolate_data] *)
  Fixpoint increasing (l : list Z) : bool :=
    match l with a :: ((b :: _) as r) => Z.ltb a b && increasing r | _ => true end.
  (** solar_activity/base.py 262-321 [interpolate_data] *)
  Fixpoint all_some (l : list (Z * option R)) : option (list (Z * R)) :=
    match l with
    | [] => Some []
    | (t, Some v) :: r => option_map (cons (t, v)) (all_some r)
    | (_, None) :: _ => None
    end.
  (** solar_activity/base.py 262-321 [interpolate_data] *)
  Definition interpolate_data (source : list (Z * option R)) (target : list Z) : result (list (option R)) :=
    match all_some source with
    | None => Err NotImplementedError                                                          (* 283-288 *)
    | Some src =>
        if negb (increasing (map fst src)) || Nat.ltb (List.length src) 4 then Err ValueError else
        match target, src with
        | t0 :: _, (s0, _) :: _ =>
            let t1 := last target t0 in
            let s1 := fst (last src (s0, 0%R)) in
            let tk_hi := if Z.ltb s1 t1 then (fun t => Z.leb t s1) else (fun _ => true) in      (* 306-309 *)
            let tk_lo := if Z.ltb t0 s0 then (fun t => Z.leb s0 t) else (fun _ => true) in      (* 311-314 *)
            Ok (map (fun t => if tk_hi t && tk_lo t then Some (spline src t) else None) target) (* 316-317 *)
        | _, _ => Err IndexError
        end
    end.
End Interp.
