(** fitfunctions/core.py: everything a fit object reports about its last fit: parameters, uncertainties,
    chi-squared, bounds, initial guess, TeX info and plotter, over a history of fits. Extends [FitCore]. *)
From Coq Require Import List String Bool Arith ZArith.
From Verif Require Import Py PyStr Num FitCore FitPlot.
Import ListNotations.
Open Scope string_scope.
Open Scope list_scope.

Section Session.
  Context {T : Type} {A : Arith T} {TT : Transc T}.
  Local Open Scope num_scope.

  (** np.inf, as used in fitfunctions/core.py 617, 725, 746 *)
  Definition inf : T := aofZ 1 / aofZ 0.

  (** scipy's OptimizeResult: the parameters, the cost and the (robust) residuals. fitfunctions/core.py 687-721 *)
  Record lsqr := mkRes { r_x : list T; r_cost : T; r_fun : list T }.
  (** called at fitfunctions/core.py 687-700 *)
  Inductive lsq := LRaises (e : exn) | LNoSuccess | LSuccess (r : lsqr).
  (** least_squares as a function of the model, the data, the start and the bounds; anything. fitfunctions/core.py 682-697 *)
  Definition solver := (list T -> T -> T) -> obs (T := T) -> list T -> list T * list T -> lsq.
  (** The diagonal of V diag(1/s^2) V^T from the singular value decomposition of the Jacobian; it may raise
      (LinAlgError is a ValueError). fitfunctions/core.py 733-737 *)
  Definition covariance := lsqr -> result (list T).

  (** One side of the bounds: a number for all parameters or one per parameter. fitfunctions/core.py 617, 639-646 *)
  Inductive side := One (x : T) | Each (l : list T).
  (** fitfunctions/core.py 617, 639-646 *)
  Inductive bnds := Sides (lo hi : side) | Named (d : list (string * (T * T))).
  (** scipy's prepare_bounds at fitfunctions/core.py 646 *)
  Definition spread (n : nat) (s : side) : list T := match s with One x => repeat x n | Each l => l end.
  (** fitfunctions/core.py 639-646 *)
  Definition the_bounds (args : list string) (n : nat) (b : bnds) : result (list T * list T) :=
    match b with
    | Sides lo hi => Ok (spread n lo, spread n hi)
    | Named d => rmap (fun l => (map fst l, map snd l)) (mapM (fun k => dict_get k d) args)
    end.
  (** scipy's _initialize_feasible, called at fitfunctions/core.py 647-648 *)
  Definition feasible1 (lo hi : T) : T :=
    if aisfin lo && aisfin hi then aofQ 1 2 * (lo + hi)
    else if aisfin lo then lo + aofZ 1
    else if aisfin hi then hi - aofZ 1
    else aofZ 1.
  (** ditto: fitfunctions/core.py 647-648 *)
  Definition feasible (b : list T * list T) : list T := map2 feasible1 (fst b) (snd b).

  (** The keyword arguments of make_fit; [s_p0 = Some None] is an explicit p0=None. fitfunctions/core.py 616-622, 802 *)
  Record kws := mkKws { s_p0 : option (option (list T)); s_bounds : bnds; s_absolute : bool }.

  (** What TeX_info was given. fitfunctions/core.py 472-494 *)
  Record texsnap := mkTexSnap {
    t_popt : list (string * T); t_psigma : list (string * T); t_chisq : option (T * T); t_rsq : T;
    t_guess : option (list (string * (T * (T * T)))) }.

  (** The attributes of a fit object; None: not set yet. fitfunctions/core.py 90-191, 702-705, 818-825 *)
  Record session := mkSession {
    f_class : ffclass (T := T);
    f_obs : used_raw (T := T);
    f_popt : option (list (string * T));
    f_psigma : option (list (string * T));
    f_chisq : option (T * T);                      (* linear, robust *)
    f_bounds : option (list (string * (T * T)));
    f_result : option lsqr;
    f_tex : option texsnap;
    f_plot : option (ffplot (T := T)) }.

  (** A new object has observations and nothing else. fitfunctions/core.py 167-191 *)
  Definition new_session (c : ffclass) (u : used_raw) : session :=
    mkSession c u None None None None None None None.
  (** fitfunctions/core.py 557-611 [set_fit_obs] replaces the observations and nothing else *)
  Definition with_obs (u : used_raw) (o : session) : session :=
    mkSession (f_class o) u (f_popt o) (f_psigma o) (f_chisq o) (f_bounds o) (f_result o) (f_tex o) (f_plot o).
  (** fitfunctions/core.py 705 *)
  Definition with_bounds (b : list (string * (T * T))) (o : session) : session :=
    mkSession (f_class o) (f_obs o) (f_popt o) (f_psigma o) (f_chisq o) (Some b) (f_result o) (f_tex o) (f_plot o).
  (** fitfunctions/core.py 818-822 *)
  Definition with_fit (popt psigma : list T) (ch : T * T) (r : lsqr) (o : session) : session :=
    mkSession (f_class o) (f_obs o) (Some (combine (c_args (f_class o)) popt)) (Some (combine (c_args (f_class o)) psigma))
      (Some ch) (f_bounds o) (Some r) (f_tex o) (f_plot o).
  (** fitfunctions/core.py 493 *)
  Definition with_tex (t : texsnap) (o : session) : session :=
    mkSession (f_class o) (f_obs o) (f_popt o) (f_psigma o) (f_chisq o) (f_bounds o) (f_result o) (Some t) (f_plot o).
  (** fitfunctions/core.py 469 *)
  Definition with_plot (p : ffplot) (o : session) : session :=
    mkSession (f_class o) (f_obs o) (f_popt o) (f_psigma o) (f_chisq o) (f_bounds o) (f_result o) (f_tex o) (Some p).

  (** fitfunctions/core.py 613-708 [_run_least_squares]: the result, the start it used and the object, whose bounds it
      sets on success. The weights are one-dimensional. *)
  Definition run_ls (solve : solver) (o : session) (k : kws) : result (lsqr * list T * session) :=
    bind (c_p0 (f_class o) (u_used (f_obs o))) (fun dflt =>
    let args := c_args (f_class o) in
    let p0 := match s_p0 k with Some p => p | None => dflt end in
    let n := match p0 with Some p => List.length p | None => List.length args end in
    bind (the_bounds args n (s_bounds k)) (fun bd =>
    let start := match p0 with Some p => p | None => feasible bd end in
    match solve (c_fun (f_class o)) (u_used (f_obs o)) start bd with
    | LRaises e => Err e
    | LNoSuccess => Err FitFailedError
    | LSuccess r => Ok (r, start, with_bounds (combine args (combine (fst bd) (snd bd))) o)
    end)).

  (** fitfunctions/core.py 719-730 chi^2 per degree of freedom, [np] the number of parameters started from *)
  Definition linear_chisq (f : T -> T) (np : nat) (o : obs) : T :=
    match chisq_dof f np o with Some c => c | None => inf end.
  (** fitfunctions/core.py 719-720, 739-747 the variance that scales the covariance, NaN without spare observations *)
  Definition robust_chisq (r : lsqr) (np : nat) : T :=
    if Nat.ltb np (List.length (r_fun r))
    then (aofZ 2 * r_cost r) / aofZ (Z.of_nat (List.length (r_fun r)) - Z.of_nat np)
    else anan.
  (** fitfunctions/core.py 739-755 the uncertainties, from the diagonal of the unscaled covariance *)
  Definition uncertainties (r : lsqr) (np : nat) (diag : list T) : list T :=
    if Nat.ltb np (List.length (r_fun r)) then map (fun d => asqrt (d * robust_chisq r np)) diag
    else map (fun _ => inf) diag.

  (** fitfunctions/core.py 196-220 the parameters, in the order of the arguments *)
  Definition parameters (o : session) : result (list T) :=
    match f_popt o with
    | None => Err AttributeError
    | Some p => mapM (fun k => dict_get k p) (c_args (f_class o))
    end.
  (** fitfunctions/core.py 294-312 [initial_guess_info] *)
  Definition initial_guess_info (o : session) : result (option (list (string * (T * (T * T))))) :=
    match c_p0 (f_class o) (u_used (f_obs o)), f_bounds o with
    | Err AttributeError, _ => Ok None
    | Err e, _ => Err e
    | Ok _, None => Ok None
    | Ok None, Some _ => Err TypeError
    | Ok (Some p), Some b =>
        rmap Some (mapM (fun ng => rmap (fun bd => (fst ng, (snd ng, bd))) (dict_get (fst ng) b)) (combine (c_args (f_class o)) p))
    end.
  (** fitfunctions/core.py 341-350 [combined_popt_psigma]: one row per parameter. Simplification: the dictionaries have the
      same names, which they have after every fit *)
  Definition combined_table (o : session) : result (list (string * (T * T))) :=
    match f_popt o, f_psigma o with
    | Some p, Some s => mapM (fun kv => rmap (fun sg => (fst kv, (snd kv, sg))) (dict_get (fst kv) s)) p
    | _, _ => Err AttributeError
    end.
  (** fitfunctions/core.py 472-494 [build_TeX_info] with tex_info.py 499-504 [set_popt_psigma]; before a fit r^2 raises *)
  Definition build_tex (o : session) : result texsnap :=
    match f_popt o, f_psigma o with
    | Some p, Some s =>
        bind (parameters o) (fun l =>
        bind (initial_guess_info o) (fun g =>
        if forallb (fun kv => mem_str (fst kv) (map fst s)) p
        then Ok (mkTexSnap p s (f_chisq o) (rsq (c_fun (f_class o) l) (u_used (f_obs o))) g)
        else Err ValueError))
    | _, _ => Err AttributeError
    end.
  (** fitfunctions/core.py 446-470 [build_plotter] *)
  Definition build_plot (o : session) : result ffplot :=
    match f_result o with
    | None => Err AttributeError
    | Some r =>
        bind (match parameters o with
              | Ok l => Ok (map (c_fun (f_class o) l) (o_x (u_raw (f_obs o))))
              | Err AttributeError => Ok (map (fun _ => anan) (o_x (u_raw (f_obs o))))
              | Err e => Err e
              end) (fun yfit =>
        ff_new (f_obs o) yfit (Some (r_fun r)))
    end.

  (** fitfunctions/core.py 764-825 [make_fit] of the base class. The covariance is computed outside the [try] block. *)
  Definition fit (solve : solver) (cov : covariance) (o : session) (return_exception : bool) (k : kws) : outcome * session :=
    if negb (Nat.leb (List.length (c_args (f_class o))) (nobs (f_obs o))) then
      ((if return_exception then Returned (Some InsufficientDataError) else Raised InsufficientDataError), o)
    else if s_absolute k then (Raised NotImplementedError, o)
    else match run_ls solve o k with
         | Err e => ((if caught e && return_exception then Returned (Some e) else Raised e), o)
         | Ok (r, start, o1) =>
             match cov r with
             | Err e => (Raised e, o1)
             | Ok diag =>
                 let np := List.length start in
                 let lin := linear_chisq (c_fun (f_class o) (r_x r)) np (u_used (f_obs o)) in
                 let o2 := with_fit (r_x r) (uncertainties r np diag) (lin, robust_chisq r np) r o1 in
                 match build_tex o2 with
                 | Err e => (Raised e, o2)
                 | Ok t =>
                     let o3 := with_tex t o2 in
                     match build_plot o3 with
                     | Err e => (Raised e, o3)
                     | Ok p => (Returned None, with_plot p o3)
                     end
                 end
             end
         end.
End Session.
Arguments mkRes {T}. Arguments r_x {T}. Arguments r_cost {T}. Arguments r_fun {T}.
Arguments One {T}. Arguments Each {T}. Arguments Sides {T}. Arguments Named {T}.
Arguments mkKws {T}. Arguments s_p0 {T}. Arguments s_bounds {T}. Arguments s_absolute {T}.
Arguments LRaises {T}. Arguments LNoSuccess {T}. Arguments LSuccess {T}.
