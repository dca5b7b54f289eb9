(** fitfunctions/core.py: selection of observations, fitting as a state machine around the optimiser,
    residuals and goodness of fit. *)
From Coq Require Import List String Bool Arith ZArith.
From Verif Require Import Py PyStr Num.
Import ListNotations.
Open Scope string_scope.
Open Scope list_scope.

(** a[mask]. numpy boolean indexing, [&] and element-wise operations as used in fitfunctions/core.py 390-435, 557-611 *)
Fixpoint select {A} (mask : list bool) (l : list A) : list A :=
  match mask, l with
  | b :: m, x :: r => if b then x :: select m r else select m r
  | _, _ => []
  end.
(** numpy boolean indexing, [&] and element-wise operations as used in fitfunctions/core.py 390-435, 557-611 *)
Fixpoint and_mask (a b : list bool) : list bool :=
  match a, b with x :: a', y :: b' => (x && y) :: and_mask a' b' | _, _ => [] end.
(** numpy boolean indexing, [&] and element-wise operations as used in fitfunctions/core.py 390-435, 557-611 *)
Fixpoint map2 {A B C} (f : A -> B -> C) (a : list A) (b : list B) : list C :=
  match a, b with x :: a', y :: b' => f x y :: map2 f a' b' | _, _ => [] end.

Section FitCore.
  Context {T : Type} {A : Arith T} {TT : Transc T}.
  Local Open Scope num_scope.

  (** fitfunctions/core.py 42-43. Simplification: one-dimensional arrays. *)
  Record obs := mkObs { o_x : list T; o_y : list T; o_w : option (list T) }.
  (** ditto: fitfunctions/core.py 42-43 *)
  Record used_raw := mkUsedRaw { u_used : obs; u_raw : obs; u_mask : list bool }.
  (** fitfunctions/core.py 90-110, 557-575 *)
  Record limits := mkLimits {
    l_xmin : option T; l_xmax : option T; l_xout : option (T * T);
    l_ymin : option T; l_ymax : option T; l_yout : option (T * T);
    l_wmin : option T; l_wmax : option T; l_logy : bool }.

  (** fitfunctions/core.py 414-424 [_build_one_obs_mask] *)
  Definition one_mask (lo hi : option T) (x : T) : bool :=
    aisfin x && (match lo with Some l => ageb x l | None => true end)
             && (match hi with Some h => aleb x h | None => true end).
  (** fitfunctions/core.py 426-435 [_build_outside_mask] *)
  Definition outside_mask (out : option (T * T)) (x : T) : bool :=
    match out with None => true | Some (l, u) => aleb x l || ageb x u end.
  (** ditto: fitfunctions/core.py 426-435 *)
  Definition outside_ok (out : option (T * T)) : bool :=
    match out with None => true | Some (l, u) => altb l u end.

  (** fitfunctions/core.py 390-412, 557-611 [set_fit_obs] *)
  Definition set_fit_obs (raw : obs) (l : limits) : result used_raw :=
    let n := List.length (o_x raw) in
    if negb (Nat.eqb n (List.length (o_y raw))) then Err InvalidParameterError
    else if negb (match o_w raw with Some w => Nat.eqb (List.length w) n | None => true end) then Err InvalidParameterError
    else if negb (outside_ok (l_xout l)) then Err AssertionError
    else if negb (outside_ok (l_yout l)) then Err AssertionError
    else
      let xm := map (one_mask (l_xmin l) (l_xmax l)) (o_x raw) in
      let ym := map (one_mask (l_ymin l) (l_ymax l)) (o_y raw) in
      let xo := map (outside_mask (l_xout l)) (o_x raw) in
      let yo := map (outside_mask (l_yout l)) (o_y raw) in
      let mask := and_mask (and_mask (and_mask xm ym) xo) yo in
      let mask := match o_w raw with
                  | None => mask
                  | Some w =>
                      let wm := if l_logy l then map2 (fun wi yi => wi / (yi * tln (aofZ 10))) w (o_y raw) else w in
                      and_mask mask (map (one_mask (l_wmin l) (l_wmax l)) wm)
                  end in
      Ok {| u_used := {| o_x := select mask (o_x raw); o_y := select mask (o_y raw);
                         o_w := option_map (select mask) (o_w raw) |};
            u_raw := raw; u_mask := mask |}.
  (** fitfunctions/core.py 90-191 [__init__]: without weights there may be no limits on them *)
  Definition init_obs (raw : obs) (l : limits) : result used_raw :=
    match o_w raw, l_wmin l, l_wmax l with
    | None, Some _, _ | None, _, Some _ => Err AssertionError
    | _, _, _ => set_fit_obs raw l
    end.
  (** fitfunctions/core.py 315-317 [nobs] *)
  Definition nobs (u : used_raw) : nat := List.length (filter (fun b => b) (u_mask u)).

  (* ---------------------------------------------------------------- a class of fit functions *)
  (** What a FitFunction subclass provides: the parameter names, the model, the initial guess (None where
      the class gives up; it may raise), and whether its own [make_fit] drops what the base class returns
      (gaussians.py 51-56, 106-111: Gaussian and GaussianNormalized). *)
  Record ffclass := mkClass {
    c_args : list string;
    c_fun : list T -> T -> T;
    c_p0 : obs -> result (option (list T));
    c_discards : bool }.

  (** The bounds argument: the default or a (lb, ub) pair, or one interval per parameter name. fitfunctions/core.py 613-660 *)
  Inductive bounds := BPair (lb ub : list T) | BDict (d : list (string * (T * T))).
  (** fitfunctions/core.py 613-660 *)
  Fixpoint dict_get {V} (k : string) (d : list (string * V)) : result V :=
    match d with
    | [] => Err KeyError
    | (k', v) :: r => if String.eqb k' k then Ok v else dict_get k r
    end.
  (** fitfunctions/core.py 639-646: the lower and upper bounds handed to the optimiser *)
  Definition resolve_bounds (args : list string) (b : bounds) : result (list T * list T) :=
    match b with
    | BPair lb ub => Ok (lb, ub)
    | BDict d => rmap (fun l => (map fst l, map snd l)) (mapM (fun k => dict_get k d) args)
    end.

  (** The optimiser (scipy.optimize.least_squares): any function of the used data, the start and the
      bounds that raises, gives up (success=False), or returns parameters, their uncertainties and the cost. called at fitfunctions/core.py 687-697 *)
  Inductive lsq_result := LsqRaises (e : exn) | LsqNoSuccess | LsqSuccess (popt psigma : list T).
  (** called at fitfunctions/core.py 687-697 *)
  Definition optimiser := (list T -> T -> T) -> obs -> option (list T) -> list T * list T -> lsq_result.

  (** fitfunctions/core.py 613-660 *)
  Record kwargs := mkKwargs { k_p0 : option (list T); k_bounds : bounds; k_absolute_sigma : bool }.

  (** A fit-function object. the attributes of fitfunctions/core.py 90-191, 557-611, 764-825 *)
  Record ffobj := mkFF {
    ff_class : ffclass;
    ff_obs : used_raw;
    ff_popt : option (list (string * T));
    ff_psigma : option (list (string * T)) }.

  (** fitfunctions/core.py 613-708 [_run_least_squares]; [self.p0] is evaluated even if a start is given (616) *)
  Definition run_least_squares (lsq : optimiser) (o : ffobj) (k : kwargs) : result (list T * list T) :=
    match c_p0 (ff_class o) (u_used (ff_obs o)) with
    | Err e => Err e
    | Ok dflt =>
        let p0 := match k_p0 k with Some p => Some p | None => dflt end in
        match resolve_bounds (c_args (ff_class o)) (k_bounds k) with
        | Err e => Err e
        | Ok bd =>
            match lsq (c_fun (ff_class o)) (u_used (ff_obs o)) p0 bd with
            | LsqRaises e => Err e
            | LsqNoSuccess => Err FitFailedError
            | LsqSuccess popt psigma => Ok (popt, psigma)
            end
        end
    end.

  (** What a call of make_fit does: it raises, or returns None or an exception; and the object afterwards. fitfunctions/core.py 764-825 *)
  Inductive outcome := Raised (e : exn) | Returned (e : option exn).

  (** fitfunctions/core.py 764-825 *)
  Definition caught (e : exn) : bool :=
    match e with RuntimeError | ValueError | FitFailedError => true | _ => false end.

  (** fitfunctions/core.py 372-380, 764-825 [FitFunction.make_fit]. Simplifications: the uncertainties come with the optimiser's
      result (710-762 computes them from its Jacobian); the TeX info and plotter it builds are not part of this state. *)
  Definition base_make_fit (lsq : optimiser) (o : ffobj) (return_exception : bool) (k : kwargs) : outcome * ffobj :=
    if negb (Nat.leb (List.length (c_args (ff_class o))) (nobs (ff_obs o))) then
      ((if return_exception then Returned (Some InsufficientDataError) else Raised InsufficientDataError), o)
    else if k_absolute_sigma k then (Raised NotImplementedError, o)
    else match run_least_squares lsq o k with
         | Err e => ((if caught e && return_exception then Returned (Some e) else Raised e), o)
         | Ok (popt, psigma) =>
             (Returned None,
              {| ff_class := ff_class o; ff_obs := ff_obs o;
                 ff_popt := Some (combine (c_args (ff_class o)) popt);
                 ff_psigma := Some (combine (c_args (ff_class o)) psigma) |})
         end.
  (** gaussians.py 51-56, 106-111: the override calls the base method and returns nothing *)
  Definition make_fit (lsq : optimiser) (o : ffobj) (return_exception : bool) (k : kwargs) : outcome * ffobj :=
    let '(r, o') := base_make_fit lsq o return_exception k in
    if c_discards (ff_class o) then
      (match r with Raised e => Raised e | Returned _ => Returned None end, o')
    else (r, o').

  (** The object built by the constructor. fitfunctions/core.py 90-191 *)
  Definition new_ff (c : ffclass) (raw : obs) (l : limits) : result ffobj :=
    rmap (fun u => {| ff_class := c; ff_obs := u; ff_popt := None; ff_psigma := None |}) (init_obs raw l).
  (** A later [set_fit_obs] replaces the observations and nothing else. fitfunctions/core.py 557-611 *)
  Definition reset_obs (o : ffobj) (raw : obs) (l : limits) : result ffobj :=
    rmap (fun u => {| ff_class := ff_class o; ff_obs := u; ff_popt := ff_popt o; ff_psigma := ff_psigma o |}) (set_fit_obs raw l).

  (** fitfunctions/core.py 196-220 [__call__]: AttributeError before the first successful fit *)
  Definition evaluate (o : ffobj) (x : T) : result T :=
    match ff_popt o with
    | None => Err AttributeError
    | Some p => rmap (fun l => c_fun (ff_class o) l x) (mapM (fun k => dict_get k p) (c_args (ff_class o)))
    end.

  (* ---------------------------------------------------------------- goodness of fit *)
  (** fitfunctions/core.py 496-555 [residuals] of one point, from the observed and the fitted value *)
  Definition residual (pct : bool) (y f : T) : T :=
    if pct then (if aeqb f (aofZ 0) then anan else aofZ 100 * ((y - f) / f)) else y - f.
  (** ditto: fitfunctions/core.py 496-555 *)
  Definition residuals (pct : bool) (f : T -> T) (o : obs) : list T :=
    map2 (fun x y => residual pct y (f x)) (o_x o) (o_y o).
  (** ditto: fitfunctions/core.py 496-555 *)
  Definition arr_mean (l : list T) : T := sum_strict l / aofZ (Z.of_nat (List.length l)).
  (** fitfunctions/core.py 357-370 [rsq] *)
  Definition rsq (f : T -> T) (o : obs) : T :=
    let ybar := arr_mean (o_y o) in
    let tot := sum_strict (map (fun y => asq (y - ybar)) (o_y o)) in
    let res := sum_strict (map2 (fun x y => asq (y - f x)) (o_x o) (o_y o)) in
    aofZ 1 - res / tot.
  (** fitfunctions/core.py 710-730 the linear chi^2 per degree of freedom; None stands for infinity *)
  Definition chisq_dof (f : T -> T) (nparams : nat) (o : obs) : option T :=
    let dof := (Z.of_nat (List.length (o_y o)) - Z.of_nat nparams)%Z in
    if Z.eqb dof 0 then None
    else
      let r := map2 (fun x y => f x - y) (o_x o) (o_y o) in
      let r := match o_w o with None => r | Some w => map2 adiv r w end in
      Some (sum_strict (map asq r) / aofZ dof).
End FitCore.
Arguments mkObs {T}. Arguments o_x {T}. Arguments o_y {T}. Arguments o_w {T}.
Arguments mkLimits {T}. Arguments ff_class {T}. Arguments ff_obs {T}. Arguments ff_popt {T}. Arguments ff_psigma {T}.
Arguments mkClass {T}. Arguments c_args {T}. Arguments c_fun {T}. Arguments c_p0 {T}. Arguments c_discards {T}.
Arguments u_used {T}. Arguments u_raw {T}. Arguments u_mask {T}.
