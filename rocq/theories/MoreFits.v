(** More of fitfunctions: the guesses and classes of composite.py, the remaining guesses of hinge.py, exponentials.py
    and power_laws.py, the log-normal parameters of gaussians.py, and the uncertainties of core.py 710-762. *)
From Coq Require Import List String Bool Arith ZArith.
From Verif Require Import Py PyStr Sort Num FitCore FitFuncs.
Import ListNotations.
Open Scope string_scope.
Open Scope list_scope.

Section MoreFits.
  Context {T : Type} {A : Arith T} {TT : Transc T}.
  Local Open Scope num_scope.

  (** calling [function(x, *popt)], fitfunctions/core.py 196-221, 496-555 *)
  Definition ap1 (f : T -> T -> T) (p : list T) (x : T) : T := match p with [a] => f x a | _ => anan end.
  (** calling [function(x, *popt)], fitfunctions/core.py 196-221, 496-555 *)
  Definition ap5 (f : T -> T -> T -> T -> T -> T -> T) (p : list T) (x : T) : T :=
    match p with [a; b; c; d; e] => f x a b c d e | _ => anan end.
  (** calling [function(x, *popt)], fitfunctions/core.py 196-221, 496-555 *)
  Definition ap6 (f : T -> T -> T -> T -> T -> T -> T -> T) (p : list T) (x : T) : T :=
    match p with [a; b; c; d; e; g] => f x a b c d e g | _ => anan end.

  (* ---------------------------------------------------------------- composite.py *)
  (** The mean and the standard deviation of x weighted by y: composite.py 175-177, 332-334, 522-524 *)
  Definition moments (p : T -> bool) (x y : list T) : T * T :=
    let xs := pick p x x in
    let ys := pick p x y in
    (wmean xs ys, asqrt (wvar xs ys)).
  (** composite.py 127-180 *)
  Definition gaussian_plus_heavy_side_p0 (o : obs (T := T)) : result (option (list T)) :=
    let x := o_x o in let y := o_y o in
    rmap (fun peak =>
      let x0 := aofQ 3 4 * wmean x y in
      let y1 := aofQ 4 5 * peak in
      let '(mean, std) := moments (fun v => agtb v x0) x y in
      Some [x0; aofZ 0; y1; mean; std; peak]) (arr_max y).
  (** composite.py 304-352 *)
  Definition gaussian_times_heavy_side_p0 (x0 : T) (o : obs (T := T)) : result (option (list T)) :=
    let x := o_x o in let y := o_y o in
    let '(mean, std) := moments (fun v => agtb v x0) x y in
    rmap (fun peak => Some [x0; mean; std; peak]) (arr_max (pick (fun v => agtb v x0) x y)).
  (** composite.py 489-542 *)
  Definition gaussian_times_plus_heavy_side_p0 (x0 : T) (o : obs (T := T)) : result (option (list T)) :=
    let x := o_x o in let y := o_y o in
    let m := arr_mean (pick (fun v => negb (agtb v x0)) x y) in
    let y1 := if aisnan m then aofZ 0 else m in
    let '(mean, std) := moments (fun v => agtb v x0) x y in
    rmap (fun peak => Some [x0; y1; mean; std; peak]) (arr_max (pick (fun v => agtb v x0) x y)).
  (** The classes, composite.py 24-122; 248-255, 263-301; 425-432, 440-486. The last two need [guess_x0]. *)
  Definition GaussianPlusHeavySide : ffclass (T := T) :=
    mkClass ["x0"; "y0"; "y1"; "mu"; "sigma"; "A"] (ap6 gaussian_plus_heavy_side) gaussian_plus_heavy_side_p0 false.
  (** composite.py 200-300 *)
  Definition GaussianTimesHeavySide (guess_x0 : option T) : result (ffclass (T := T)) :=
    match guess_x0 with
    | None => Err ValueError
    | Some x0 => Ok (mkClass ["x0"; "mu"; "sigma"; "A"] (ap4 gaussian_times_heavy_side) (gaussian_times_heavy_side_p0 x0) false)
    end.
  (** composite.py 369-485 *)
  Definition GaussianTimesHeavySidePlusHeavySide (guess_x0 : option T) : result (ffclass (T := T)) :=
    match guess_x0 with
    | None => Err ValueError
    | Some x0 => Ok (mkClass ["x0"; "y1"; "mu"; "sigma"; "A"] (ap5 gaussian_times_plus_heavy_side)
                             (gaussian_times_plus_heavy_side_p0 x0) false)
    end.

  (* ---------------------------------------------------------------- hinge.py *)
  (** np.polyfit(x, y, 1)[0]: the slope of the least-squares line. Simplification: by the normal equations
      (numpy solves them by a singular value decomposition; x not all equal). hinge.py 160 *)
  Definition ols_slope (x y : list T) : T :=
    let mx := arr_mean x in
    let my := arr_mean y in
    sum_strict (map2 (fun a b => (a - mx) * (b - my)) x y) / sum_strict (map (fun a => asq (a - mx)) x).
  (** hinge.py 128-177 [HingeSaturation.p0] *)
  Definition hinge_saturation_p0 (xh yh : T) (o : obs (T := T)) : result (option (list T)) :=
    let x := o_x o in let y := o_y o in
    let rising := fun v => altb v xh in
    let plateau := fun v => ageb v xh in
    bind (if Nat.leb 2 (count rising x) then
            let m1 := ols_slope (pick rising x x) (pick rising x y) in
            if agtb (aabs m1) (aofQ 1 10000000000) then Ok (xh - yh / m1) else arr_min x
          else arr_min x) (fun x1 =>
    let m2 := if Nat.leb 2 (count plateau x) then
                median (map2 adiv (ediff1d (pick plateau x y)) (ediff1d (pick plateau x x)))
              else aofZ 0 in
    Ok (Some [xh; yh; x1; m2])).
  (** ditto: hinge.py 128-177 *)
  Definition HingeSaturation (xh yh : T) : ffclass (T := T) :=
    mkClass ["xh"; "yh"; "x1"; "m2"] (ap4 hinge_saturation) (hinge_saturation_p0 xh yh) false.
  (** hinge.py 549-593: the slopes and the second intercept of a Saturation *)
  Definition saturation_m1 (x1 xs s : T) : T := s / (xs - x1).
  (** ditto: hinge.py 549-593 *)
  Definition saturation_m2 (x1 xs s theta : T) : T := ttan (tatan (saturation_m1 x1 xs s) - theta).
  (** ditto: hinge.py 549-593 *)
  Definition saturation_x2 (x1 xs s theta : T) : T := xs - s / saturation_m2 x1 xs s theta.
  (** hinge.py 596-644 [Saturation.p0]: the guess for s is not used *)
  Definition saturation_p0 (guess_xs guess_s : T) (o : obs (T := T)) : result (option (list T)) :=
    let '(x1, m1) := estimate_line (fun x => aleb x guess_xs) (o_x o) (o_y o) in
    let '(x2, m2) := estimate_line (fun x => negb (aleb x guess_xs)) (o_x o) (o_y o) in
    let s := nanmedian [m1 * (guess_xs - x1); m2 * (guess_xs - x2)] in
    let theta := tatan ((m1 - m2) / (aofZ 1 + m1 * m2)) in
    Ok (Some [x1; guess_xs; s; theta]).
  (** ditto: hinge.py 596-644 *)
  Definition Saturation (guess_xs guess_s : T) : ffclass (T := T) :=
    mkClass ["x1"; "xs"; "s"; "theta"] (ap4 saturation) (saturation_p0 guess_xs guess_s) false.
  (** hinge.py 882-1080 *)
  Definition HingeMax (guess_h : T) : ffclass (T := T) :=
    mkClass ["m1"; "x1"; "x2"; "h"] (ap4 hinge_max) (hinge_p0 guess_h) false.

  (* ---------------------------------------------------------------- exponentials.py, power_laws.py *)
  (** exponentials.py 60-71 *)
  Definition ExponentialPlusC : ffclass (T := T) :=
    mkClass ["c"; "A"; "d"] (ap3 exponential_plus_c)
            (fun o => rmap (fun peak => Some [aofZ 1; peak; aofZ 0]) (arr_max (o_y o))) false.
  (** power_laws.py 66-100, 109-143 *)
  Definition PowerLawPlusC : ffclass (T := T) :=
    mkClass ["A"; "b"; "c"] (ap3 power_law_plus_c) (fun o => Ok (Some [aofZ 1; aofZ 1; aofZ 0])) false.
  (** ditto: power_laws.py 66-100, 109-143 *)
  Definition PowerLawOffCenter : ffclass (T := T) :=
    mkClass ["A"; "b"; "x0"] (ap3 power_law_off_center) (fun o => Ok (Some [aofZ 1; aofZ 1; aofZ 0])) false.
  (** exponentials.py 79-110. [y0] is an attribute of the object, unset until [set_y0]; the curve needs it, the guess
      and the parameter names do not. *)
  Definition ExponentialCDF (y0 : option T) : ffclass (T := T) :=
    mkClass ["c"] (fun p x => match y0 with Some a => ap1 (exponential_cdf a) p x | None => anan end)
            (fun o => Ok (Some [arr_mean (o_y o)])) false.
  (** least_squares either rejects its arguments or evaluates the curve; without [y0] that raises AttributeError (94). exponentials.py 85-99, fitfunctions/core.py 687-697 *)
  Definition cdf_optimiser (y0 : option T) (rejects : option (list T) -> list T * list T -> option exn)
      (lsq : optimiser (T := T)) : optimiser (T := T) :=
    fun f u p0 bd =>
      match rejects p0 bd with
      | Some e => LsqRaises e
      | None => match y0 with None => LsqRaises AttributeError | Some _ => lsq f u p0 bd end
      end.
  (** exponentials.py 96-98 [set_y0]: only the attribute changes *)
  Definition cdf_set_y0 (o : ffobj (T := T)) (y0 : T) : ffobj (T := T) :=
    {| ff_class := ExponentialCDF (Some y0); ff_obs := ff_obs o; ff_popt := ff_popt o; ff_psigma := ff_psigma o |}.
  (** exponentials.py 84-94 through core.py 196-220 *)
  Definition cdf_evaluate (y0 : option T) (o : ffobj (T := T)) (x : T) : result T :=
    match ff_popt o, y0 with
    | None, _ => Err AttributeError
    | Some p, None => match dict_get "c" p with Ok _ => Err AttributeError | Err e => Err e end
    | Some p, Some a => rmap (fun c => exponential_cdf a x c) (dict_get "c" p)
    end.

  (** gaussians.py 186-203 *)
  Definition ln_normal_parameters (m s : T) : T * T :=
    let mu := texp (m + asq s / aofZ 2) in
    let v := texp (asq s + aofZ 2 * m) * (texp (asq s) - aofZ 1) in
    (mu, asqrt v).

  (* ---------------------------------------------------------------- core.py 710-762 *)
  (** The singular value decomposition of the Jacobian enters as its singular values, largest first, each with its
      right singular vector; [eps] is the machine epsilon and [big] the larger dimension. fitfunctions/core.py 732 *)
  Definition svd := list (T * list T).
  (** 733-736. fitfunctions/core.py 733-736 *)
  Definition kept (eps big : T) (sv : svd) : svd :=
    match sv with
    | [] => []
    | s0 :: _ => filter (fun p => agtb (fst p) (eps * big * fst s0)) sv
    end.
  (** 737. fitfunctions/core.py 737 *)
  Definition pinv (sv : svd) (i j : nat) : T :=
    sum_strict (map (fun p => nth i (snd p) anan / asq (fst p) * nth j (snd p) anan) sv).
  (** 739-755; [cost] is least_squares' cost, half the sum of the losses; [None]: no estimate, all are infinite. fitfunctions/core.py 739-757 *)
  Definition scale_sq (cost : T) (ysize nparams : nat) : option T :=
    if Nat.ltb nparams ysize then Some (aofZ 2 * cost / aofZ (Z.of_nat (ysize - nparams))) else None.
  (** fitfunctions/core.py 739-757 *)
  Definition pcov (inf eps big cost : T) (ysize nparams : nat) (sv : svd) (i j : nat) : T :=
    match scale_sq cost ysize nparams with
    | Some q => pinv (kept eps big sv) i j * q
    | None => inf
    end.
  (** fitfunctions/core.py 739-757 *)
  Definition psigma (inf eps big cost : T) (ysize nparams : nat) (sv : svd) : list T :=
    map (fun i => asqrt (pcov inf eps big cost ysize nparams sv i i)) (seq 0 nparams).
  (** scipy's cost with the default loss "huber" and [f_scale] (619-621, 687-697): half of
      [f_scale^2 * rho((r / f_scale)^2)] with [rho z = z] up to 1 and [2 sqrt z - 1] beyond. fitfunctions/core.py 619-621, 687-697 *)
  Definition huber (z : T) : T := if aleb z (aofZ 1) then z else aofZ 2 * asqrt z - aofZ 1.
  (** fitfunctions/core.py 619-621, 687-697 *)
  Definition huber_cost (f_scale : T) (res : list T) : T :=
    ahalf * (asq f_scale * sum_strict (map (fun r => huber (asq (r / f_scale))) res)).
  (** 718-730, 760: chi^2 per degree of freedom, plain and robust; None stands for "not available" (inf, NaN). fitfunctions/core.py 718-730, 760 *)
  Definition chisq_linear (res : list T) (nparams : nat) : option T :=
    let dof := (Z.of_nat (List.length res) - Z.of_nat nparams)%Z in
    if Z.eqb dof 0 then None else Some (sum_strict (map asq res) / aofZ dof).
  (** fitfunctions/core.py 718-730, 760 *)
  Definition chisq_robust (f_scale : T) (res : list T) (nparams : nat) : option T :=
    scale_sq (huber_cost f_scale res) (List.length res) nparams.
End MoreFits.
