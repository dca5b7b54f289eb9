(** solar_activity/sunspot_number/sidc.py 335-340, 392-398, 414-449 and solar_activity/base.py 246-258: what a sunspot-number object remembers
    between calls of run_normalization, normalized, interpolate_data and norm_by. *)
From Coq Require Import List String Bool ZArith.
From Verif Require Import Py PyStr Num Solar Activity.
Import ListNotations.
Open Scope list_scope.
Section S.
  Context {T : Type} {A : Arith T}.
  (** base.py 333-339 [interpolate_data]: the spline through the samples, on the target times; any function here, its own properties are stated elsewhere *)
  Variable interp : list (Z * T) -> list Z -> result (list T).
  (** base.py 405-454: the intervals of the cycles *)
  Variable cs : list cyc.
  (** sidc.py 338-340: the interpolated table: its times and the columns "ssn" and "nssn" it has *)
  Record table := mkTab { t_at : list Z; t_ssn : option (list T); t_nssn : option (list T) }.
  (** sidc.py 335-449: the columns "ssn" and "nssn" of [data] (times sorted and distinct), [_norm_by] and [_interpolated] *)
  Record sidc := mkSidc { s_at : list Z; s_ssn : list T; s_nssn : option (list T); s_by : option norm_by; s_int : option table }.
  (** sidc.py 416: the allowed names *)
  Definition norm_of (s : string) : option norm_by :=
    if String.eqb s "max" then Some ByMax else if String.eqb s "zscore" then Some ByZscore else if String.eqb s "feature-scale" then Some ByFeature else None.
  (** sidc.py 400-412: the series returned has the samples inside a cycle only *)
  Definition inside (l : list (Z * T)) : list (Z * T) := filter (fun p => existsb (fun c => in_ivl (fst p) (c_all c)) cs) l.
  (** sidc.py 414-449. The data are stored, 438, before the interpolated table is looked at, 441-447; a table without "ssn" is a KeyError that nobody catches *)
  Definition do_normalize (s : string) (o : sidc) : sidc * result (list (Z * T)) :=
    match norm_of s with
    | None => (o, Err AssertionError)
    | Some b =>
        let n := run_normalization b cs (combine (s_at o) (s_ssn o)) in
        let out := Ok (inside (combine (s_at o) n)) in
        match s_int o with
        | None => (mkSidc (s_at o) (s_ssn o) (Some n) (Some b) None, out)
        | Some t =>
            match t_ssn t with
            | None => (mkSidc (s_at o) (s_ssn o) (Some n) (Some b) (Some t), Err KeyError)
            | Some l => (mkSidc (s_at o) (s_ssn o) (Some n) (Some b) (Some (mkTab (t_at t) (Some l) (Some (run_normalization b cs (combine (t_at t) l))))), out)
            end
        end
    end.
  (** sidc.py 392-398: the stored column, or the first normalisation (by "max") *)
  Definition do_normalized (o : sidc) : sidc * result (list (Z * T)) :=
    match s_nssn o with Some n => (o, Ok (combine (s_at o) n)) | None => do_normalize "max" o end.
  (** sidc.py 335-340: missing samples are dropped; the table is replaced only if the interpolation succeeds. Keys other than "ssn" and "nssn" are not modelled *)
  Definition do_interpolate (nssn : bool) (target : list Z) (o : sidc) : sidc * result (list (Z * T)) :=
    match (if nssn then s_nssn o else Some (s_ssn o)) with
    | None => (o, Err KeyError)
    | Some col =>
        match interp (filter (fun p => negb (aisnan (snd p))) (combine (s_at o) col)) target with
        | Err e => (o, Err e)
        | Ok v => (mkSidc (s_at o) (s_ssn o) (s_nssn o) (s_by o) (Some (if nssn then mkTab target None (Some v) else mkTab target (Some v) None)), Ok (combine target v))
        end
    end.
  (** base.py 246-250 *)
  Definition get_norm_by (o : sidc) : result norm_by := match s_by o with Some b => Ok b | None => Err AttributeError end.
  (** sidc.py 335-449: the calls *)
  Inductive call := Normalize (s : string) | Normalized | Interpolate (nssn : bool) (target : list Z).
  (** ditto: sidc.py 335-449 *)
  Definition act (c : call) (o : sidc) : sidc * result (list (Z * T)) :=
    match c with Normalize s => do_normalize s o | Normalized => do_normalized o | Interpolate k t => do_interpolate k t o end.
  (** sidc.py 335-449: a history of calls, each may fail *)
  Definition after (l : list call) (o : sidc) : sidc := fold_left (fun o c => fst (act c o)) l o.
  (** sidc.py: a freshly loaded object *)
  Definition fresh (at_ : list Z) (ssn : list T) : sidc := mkSidc at_ ssn None None None.
End S.
