(** fitfunctions/trend_fits.py: TrendFit.make_ffunc1ds, make_1dfits (sequential and parallel), popt_1d, make_trend_func. *)
From Coq Require Import List String Bool Arith ZArith.
From Verif Require Import Py PyStr Num FitCore.
Import ListNotations.
Open Scope string_scope.
Open Scope list_scope.

Section TrendFit.
  Context {T : Type} {A : Arith T} {TT : Transc T}.
  Local Open Scope num_scope.

  (** the defaults of fitfunctions/core.py 90-110 (no limits given) *)
  Definition no_limits : limits (T := T) := mkLimits None None None None None None None None false.

  (** The 1d fits by column. The column label is represented by its number: the label itself, or the midpoint
      of its interval (145, 376). Labels are distinct (they are dictionary keys, 151-159). fitfunctions/trend_fits.py 139-200 *)
  Definition ffuncs := list (T * ffobj (T := T)).
  (** fitfunctions/trend_fits.py 139-200 *)
  Record trend := mkTrend { t_ffuncs : ffuncs; t_bad : ffuncs }.

  (** fitfunctions/trend_fits.py 139-160 [make_ffunc1ds]: one fit function per column of the table, all with the same x, weights and limits *)
  Definition make_ffunc1ds (c : ffclass (T := T)) (x : list T) (w : option (list T)) (l : limits (T := T))
      (agg : list (T * list T)) : result ffuncs :=
    mapM (fun ky => rmap (fun f => (fst ky, f)) (new_ff c (mkObs x (snd ky) w) l)) agg.

  (** fitfunctions/trend_fits.py 295-299, the sequential path: fits in order; the first that raises ends the call. *)
  Definition fit_one (lsq : optimiser (T := T)) (re : bool) (k : kwargs (T := T)) (f : ffobj (T := T)) : result (option exn * ffobj (T := T)) :=
    match make_fit lsq f re k with
    | (Raised e, _) => Err e
    | (Returned r, f') => Ok (r, f')
    end.
  (** ditto: fitfunctions/trend_fits.py 295-299 *)
  Definition seq_fits (lsq : optimiser (T := T)) (re : bool) (k : kwargs (T := T)) (fs : ffuncs) : result (list (T * (option exn * ffobj (T := T)))) :=
    mapM (fun kf => rmap (fun r => (fst kf, r)) (fit_one lsq re k (snd kf))) fs.

  (** fitfunctions/trend_fits.py 238-272: a task rebuilds the function from its raw x and y. None of the attributes asked for in 257-264 exists
      on a fit function, so no limits are passed; weights are not passed either. *)
  Definition task (lsq : optimiser (T := T)) (re : bool) (k : kwargs (T := T)) (f : ffobj (T := T)) : result (option exn * ffobj (T := T)) :=
    bind (new_ff (ff_class f) (mkObs (o_x (u_raw (ff_obs f))) (o_y (u_raw (ff_obs f))) None) no_limits) (fun f' => fit_one lsq re k f').

  (** fitfunctions/trend_fits.py 275-282: the pool runs the tasks in some order (a list of positions) and hands the results back by position.
      Simplification: if a task raises, the call raises the exception of the first one to do so. *)
  Fixpoint run_pool (tasks : list (result (option exn * ffobj (T := T)))) (order : list nat)
      (slots : list (nat * (option exn * ffobj (T := T)))) : result (list (nat * (option exn * ffobj (T := T)))) :=
    match order with
    | [] => Ok slots
    | i :: r => match nth_error tasks i with
                | None => run_pool tasks r slots
                | Some (Err e) => Err e
                | Some (Ok v) => run_pool tasks r (slots ++ [(i, v)])
                end
    end.
  (** ditto: fitfunctions/trend_fits.py 275-282 *)
  Fixpoint slot (i : nat) (slots : list (nat * (option exn * ffobj (T := T)))) : option (option exn * ffobj (T := T)) :=
    match slots with [] => None | (j, v) :: r => if Nat.eqb i j then Some v else slot i r end.
  (** fitfunctions/trend_fits.py 284-293: gathered by position *)
  Definition par_fits (lsq : optimiser (T := T)) (re : bool) (k : kwargs (T := T)) (order : list nat) (fs : ffuncs)
      : result (list (T * (option exn * ffobj (T := T)))) :=
    bind (run_pool (map (fun kf => task lsq re k (snd kf)) fs) order []) (fun slots =>
      mapM (fun ik => match slot (fst ik) slots with Some v => Ok (snd ik, v) | None => Err RuntimeError end)
           (combine (seq 0 (List.length fs)) (map fst fs))).

  (** fitfunctions/trend_fits.py 302-305: the failed ones move to bad_fits *)
  Definition failed (kr : T * (option exn * ffobj (T := T))) : bool := match fst (snd kr) with Some _ => true | None => false end.
  (** ditto: fitfunctions/trend_fits.py 302-305 *)
  Definition split_fits (l : list (T * (option exn * ffobj (T := T)))) : trend :=
    {| t_ffuncs := map (fun kr => (fst kr, snd (snd kr))) (filter (fun kr => negb (failed kr)) l);
       t_bad := map (fun kr => (fst kr, snd (snd kr))) (filter failed l) |}.

  (** fitfunctions/trend_fits.py 162-305 [make_1dfits]; [order] is the schedule of the pool. With n_jobs other than 1 and fewer than two fits neither
      path assigns the result (227, 295), and 302 raises UnboundLocalError. *)
  Definition make_1dfits (joblib : bool) (n_jobs : Z) (order : list nat) (lsq : optimiser (T := T)) (re : bool) (k : kwargs (T := T))
      (t : trend) : result trend :=
    let fs := t_ffuncs t in
    if negb (Z.eqb n_jobs 1) && Nat.ltb 1 (List.length fs) then
      if joblib then rmap split_fits (par_fits lsq re k order fs)
      else rmap split_fits (seq_fits lsq re k fs)
    else if Z.eqb n_jobs 1 then rmap split_fits (seq_fits lsq re k fs)
    else Err UnboundLocalError.

  (** fitfunctions/trend_fits.py 102-108 [popt_1d]: AttributeError for a function that has not been fitted *)
  Definition popt_1d (t : trend) : result (list (T * list (string * T))) :=
    mapM (fun kf => match ff_popt (snd kf) with Some p => Ok (fst kf, p) | None => Err AttributeError end) (t_ffuncs t).
  (** fitfunctions/trend_fits.py 363-397 [make_trend_func]: the observations given to the trend function *)
  Definition trend_obs (logx : bool) (ykey wkey : string) (t : trend) : result (obs (T := T)) :=
    bind (popt_1d t) (fun p =>
    match p with
    | [] => Err ValueError
    | _ => bind (mapM (fun kp => dict_get ykey (snd kp)) p) (fun y =>
           bind (mapM (fun kp => dict_get wkey (snd kp)) p) (fun w =>
           Ok (mkObs (map (fun kp => if logx then tpow (aofZ 10) (fst kp) else fst kp) p) y (Some w))))
    end).
End TrendFit.
Arguments mkTrend {T}. Arguments t_ffuncs {T}. Arguments t_bad {T}.
