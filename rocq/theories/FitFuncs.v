(** The model functions and initial guesses of fitfunctions/{heaviside,composite,hinge,lines,gaussians,
    moyal,power_laws,exponentials}.py. Python evaluates them elementwise on arrays; here on one x. *)
From Coq Require Import List String Bool Arith ZArith.
From Verif Require Import Py PyStr Sort Num FitCore.
Import ListNotations.
Open Scope string_scope.
Open Scope list_scope.

Section FitFuncs.
  Context {T : Type} {A : Arith T} {TT : Transc T}.
  Local Open Scope num_scope.

  (** the literal 0.5 of gaussians.py 24-46, moyal.py 28-60, heaviside.py 99-118 *)
  Definition ahalf : T := aofQ 1 2.
  (** np.heaviside. heaviside.py 118, composite.py 118, 298, 478-481 *)
  Definition heaviside (x h0 : T) : T :=
    if aisnan x then anan else if altb x (aofZ 0) then aofZ 0 else if altb (aofZ 0) x then aofZ 1 else h0.
  (** np.minimum, np.maximum: NaN propagates. hinge.py 122, 306, 543, 775, 993, 1206 *)
  Definition np_minimum (a b : T) : T := if aisnan a then a else if aisnan b then b else if aleb a b then a else b.
  (** hinge.py 122, 306, 543, 775, 993, 1206 *)
  Definition np_maximum (a b : T) : T := if aisnan a then a else if aisnan b then b else if aleb b a then a else b.

  (* ---------------------------------------------------------------- model functions *)
  (** heaviside.py 99-119 *)
  Definition heavy_side (x x0 y0 y1 : T) : T := y1 * heaviside (x0 - x) (ahalf * (y0 + y1)) + y0.
  (** gaussians.py 25-27 *)
  Definition gaussian (x mu sigma amp : T) : T := amp * texp (aopp ahalf * asq ((x - mu) / sigma)).
  (** gaussians.py 78-81 *)
  Definition gaussian_normalized (x mu sigma n : T) : T :=
    let arg := aopp ahalf * asq ((x - mu) / sigma) in
    let amp := n / (asqrt (aofZ 2 * tpi) * sigma) in
    amp * texp arg.
  (** gaussians.py 141-149 *)
  Definition gaussian_ln (x m s amp : T) : T := amp * texp (aopp ahalf * asq ((tln x - m) / s)).
  (** composite.py 87-122 *)
  Definition gaussian_plus_heavy_side (x x0 y0 y1 mu sigma amp : T) : T :=
    gaussian x mu sigma amp + (y1 * heaviside (x0 - x) ahalf + y0).
  (** composite.py 272-299 *)
  Definition gaussian_times_heavy_side (x x0 mu sigma amp : T) : T :=
    gaussian x mu sigma amp * heaviside (x - x0) (aofZ 1).
  (** composite.py 449-484 *)
  Definition gaussian_times_plus_heavy_side (x x0 y1 mu sigma amp : T) : T :=
    gaussian x mu sigma amp * heaviside (x - x0) (aofZ 1) + y1 * heaviside (x0 - x) (aofZ 1).
  (** lines.py 26-27 *)
  Definition line (x m b : T) : T := m * x + b.
  (** lines.py 98-99 *)
  Definition line_xint (x m x0 : T) : T := m * (x - x0).
  (** lines.py 66-75 and 139-148 *)
  Definition x_intercept (m b : T) : T := aopp b / m.
  (** ditto: lines.py 66-75 and 139-148 *)
  Definition y_intercept (m x0 : T) : T := aopp x0 * m.
  (** moyal.py 29-36 *)
  Definition moyal (x mu sigma amp : T) : T :=
    let center := x - mu in
    let ms_sq := asq (center / sigma) in
    let arg0 := ahalf * (ms_sq - texp ms_sq) in
    let arg1 := texp arg0 in
    amp * (texp arg1 - aofZ 1).
  (** power_laws.py 20-21, 72-73, 115-116 *)
  Definition power_law (x amp b : T) : T := amp * tpow x b.
  (** ditto: power_laws.py 20-21, 72-73, 115-116 *)
  Definition power_law_plus_c (x amp b c : T) : T := amp * tpow x b + c.
  (** ditto: power_laws.py 20-21, 72-73, 115-116 *)
  Definition power_law_off_center (x amp b x0 : T) : T := amp * tpow (x - x0) b.
  (** exponentials.py 23-24, 54-55, 86-87 *)
  Definition exponential (x c amp : T) : T := amp * texp (aopp (c * x)).
  (** ditto: exponentials.py 23-24, 54-55, 86-87 *)
  Definition exponential_plus_c (x c amp d : T) : T := amp * texp (aopp (c * x)) + d.
  (** ditto: exponentials.py 23-24, 54-55, 86-87 *)
  Definition exponential_cdf (y0 x c : T) : T := y0 * (aofZ 1 - texp (aopp (c * x))).
  (** hinge.py 95-123; 1e-15 is written as the exact fraction *)
  Definition tiny : T := aofQ 1 1000000000000000.
  (** ditto: hinge.py 95-123 *)
  Definition hinge_saturation (x xh yh x1 m2 : T) : T :=
    let m1 := yh / (xh - x1) in
    let x2 := xh - yh / m2 in
    let y1 := m1 * (x - x1) in
    let y2 := if agtb (aabs m2) tiny then m2 * (x - x2) else yh in
    np_minimum y1 y2.
  (** hinge.py 283-307 *)
  Definition twoline (x x1 x2 m1 m2 : T) : T := np_minimum (m1 * (x - x1)) (m2 * (x - x2)).
  (** hinge.py 311-358: derived properties of a TwoLine *)
  Definition twoline_xs (x1 x2 m1 m2 : T) : T := (m1 * x1 - m2 * x2) / (m1 - m2).
  (** ditto: hinge.py 311-358 *)
  Definition twoline_s (x1 x2 m1 m2 : T) : T := m1 * (twoline_xs x1 x2 m1 m2 - x1).
  (** ditto: hinge.py 311-358 *)
  Definition twoline_theta (m1 m2 : T) : T := tatan m1 - tatan m2.
  (** hinge.py 516-544 *)
  Definition saturation (x x1 xs s theta : T) : T :=
    let m1 := s / (xs - x1) in
    let m2 := ttan (tatan m1 - theta) in
    let x2 := xs - s / m2 in
    np_minimum (m1 * (x - x1)) (m2 * (x - x2)).
  (** hinge.py 751-776, 780-811 and 969-994, 998-1029 *)
  Definition hinge_m2 (m1 x1 x2 h : T) : T := m1 * (h - x1) / (h - x2).
  (** ditto: hinge.py 751-776, 780-811 and 969-994, 998-1029 *)
  Definition hinge_min (x m1 x1 x2 h : T) : T := np_minimum (m1 * (x - x1)) (hinge_m2 m1 x1 x2 h * (x - x2)).
  (** ditto: hinge.py 751-776, 780-811 and 969-994, 998-1029 *)
  Definition hinge_max (x m1 x1 x2 h : T) : T := np_maximum (m1 * (x - x1)) (hinge_m2 m1 x1 x2 h * (x - x2)).
  (** ditto: hinge.py 751-776, 780-811 and 969-994, 998-1029 *)
  Definition hinge_theta (m1 x1 x2 h : T) : T :=
    let m2 := hinge_m2 m1 x1 x2 h in tatan2 (m1 - m2) (aofZ 1 + m1 * m2).
  (** hinge.py 1179-1207, 1211-1227 *)
  Definition hinge_at_point (x xh yh m1 m2 : T) : T :=
    let x1 := xh - yh / m1 in
    let x2 := xh - yh / m2 in
    np_minimum (m1 * (x - x1)) (m2 * (x - x2)).

  (* ---------------------------------------------------------------- numpy reductions *)
  (** np.median: NaN for no or any missing value. lines.py 49-51, 121-123, heaviside.py 158-159, hinge.py 855-856, 1274 *)
  Definition sorted (l : list T) : list T := sort_by aleb l.
  (** lines.py 49-51, 121-123, heaviside.py 158-159, hinge.py 855-856, 1274 *)
  Definition median_sorted (l : list T) : T :=
    let n := List.length l in
    if Nat.eqb n 0 then anan
    else if Nat.odd n then nth (n / 2) l anan
    else (nth (n / 2 - 1) l anan + nth (n / 2) l anan) / aofZ 2.
  (** lines.py 49-51, 121-123, heaviside.py 158-159, hinge.py 855-856, 1274 *)
  Definition median (l : list T) : T := if existsb aisnan l then anan else median_sorted (sorted l).
  (** np.nanmedian. hinge.py 390-391, 625-640, 845-846, 1266 *)
  Definition nanmedian (l : list T) : T := median (filter (fun x => negb (aisnan x)) l).
  (** np.ediff1d. lines.py 46, 118, hinge.py 389, 624, 844, 1265 *)
  Fixpoint ediff1d (l : list T) : list T :=
    match l with x :: ((y :: _) as r) => (y - x) :: ediff1d r | _ => [] end.
  (** ndarray.max, ndarray.min: an empty array has none; NaN propagates. gaussians.py 40, 94, 163, heaviside.py 151, hinge.py 849-850, 1269 *)
  Definition arr_max (l : list T) : result T :=
    match l with [] => Err ValueError | x :: r => Ok (fold_left np_maximum r x) end.
  (** gaussians.py 40, 94, 163, heaviside.py 151, hinge.py 849-850, 1269 *)
  Definition arr_min (l : list T) : result T :=
    match l with [] => Err ValueError | x :: r => Ok (fold_left np_minimum r x) end.

  (* ---------------------------------------------------------------- initial guesses *)
  (** lines.py 32-59 and 104-132: slope, intercept by medians; None unless all steps in x are finite and non-zero *)
  Definition slope_guess (x y : list T) : T := median (map2 adiv (ediff1d y) (ediff1d x)).
  (** ditto: lines.py 32-59 and 104-132 *)
  Definition intercept_guess (m : T) (x y : list T) : T := median (map2 (fun xi yi => m * xi - yi) x y).
  (** ditto: lines.py 32-59 and 104-132 *)
  Definition dx_ok (x : list T) : bool := forallb (fun d => aisfin d && agtb (aabs d) (aofZ 0)) (ediff1d x).
  (** ditto: lines.py 32-59 and 104-132 *)
  Definition line_p0 (o : obs (T := T)) : result (option (list T)) :=
    let m := slope_guess (o_x o) (o_y o) in
    let b := intercept_guess m (o_x o) (o_y o) in
    Ok (if dx_ok (o_x o) then Some [m; b] else None).
  (** ditto: lines.py 32-59 and 104-132 *)
  Definition line_xint_p0 (o : obs (T := T)) : result (option (list T)) :=
    let m := slope_guess (o_x o) (o_y o) in
    let b := intercept_guess m (o_x o) (o_y o) in
    Ok (if dx_ok (o_x o) then Some [m; aopp b / m] else None).
  (** gaussians.py 32-43, 86-98, 154-167; moyal.py 44-62: the weighted mean and spread of x and the largest y *)
  Definition wmean (x y : list T) : T := sum_strict (map2 amul x y) / sum_strict y.
  (** ditto: gaussians.py 32-43, 86-98, 154-167 *)
  Definition wvar (x y : list T) : T :=
    sum_strict (map2 (fun xi yi => asq (xi - wmean x y) * yi) x y) / sum_strict y.
  (** ditto: gaussians.py 32-43, 86-98, 154-167 *)
  Definition gaussian_p0 (o : obs (T := T)) : result (option (list T)) :=
    rmap (fun peak => Some [wmean (o_x o) (o_y o); asqrt (wvar (o_x o) (o_y o)); peak]) (arr_max (o_y o)).
  (** ditto: gaussians.py 32-43, 86-98, 154-167 *)
  Definition gaussian_normalized_p0 (o : obs (T := T)) : result (option (list T)) :=
    rmap (fun peak => let std := asqrt (wvar (o_x o) (o_y o)) in
                      Some [wmean (o_x o) (o_y o); std; peak * std * asqrt (aofZ 2 * tpi)]) (arr_max (o_y o)).
  (** ditto: gaussians.py 32-43, 86-98, 154-167 *)
  Definition gaussian_ln_p0 (o : obs (T := T)) : result (option (list T)) :=
    rmap (fun peak => Some (map tln [wmean (o_x o) (o_y o); wvar (o_x o) (o_y o); peak])) (arr_max (o_y o)).
  (** heaviside.py 124-166 *)
  Record step_guess := mkStepGuess { g_x0 : option T; g_y0 : option T; g_y1 : option T }.
  (** ditto: heaviside.py 124-166 *)
  Definition pick (p : T -> bool) (x y : list T) : list T := select (map p x) y.
  (** ditto: heaviside.py 124-166 *)
  Definition heavy_side_p0 (g : step_guess) (o : obs (T := T)) : result (option (list T)) :=
    bind (arr_max (o_x o)) (fun hi => bind (arr_min (o_x o)) (fun lo =>
    let x0 := match g_x0 g with Some v => v | None => (hi + lo) / aofZ 2 end in
    Ok (Some (match g_y0 g, g_y1 g with
              | Some y0, Some y1 => [x0; y0; y1]
              | _, _ =>
                  let y0 := median (pick (fun x => agtb x x0) (o_x o) (o_y o)) in
                  let y1 := median (pick (fun x => altb x x0) (o_x o) (o_y o)) - y0 in
                  [x0; (if aisnan y0 then arr_mean (o_y o) else y0); (if aisnan y1 then aofZ 0 else y1)]
              end)))).
  (** hinge.py 361-405 [TwoLine.p0] *)
  Definition estimate_line (p : T -> bool) (x y : list T) : T * T :=
    let xs := pick p x x in
    let ys := pick p x y in
    let m := nanmedian (map2 adiv (ediff1d ys) (ediff1d xs)) in
    (nanmedian (map2 (fun xi yi => xi - yi / m) xs ys), m).
  (** ditto: hinge.py 361-405 *)
  Definition twoline_p0 (guess_xs : T) (o : obs (T := T)) : result (option (list T)) :=
    let '(x1, m1) := estimate_line (fun x => aleb x guess_xs) (o_x o) (o_y o) in
    let '(x2, m2) := estimate_line (fun x => negb (aleb x guess_xs)) (o_x o) (o_y o) in
    Ok (Some [x1; x2; m1; m2]).
  (** hinge.py 814-862, 1032-1080 [HingeMin.p0], [HingeMax.p0] *)
  Definition count (p : T -> bool) (x : list T) : nat := List.length (filter p x).
  (** ditto: hinge.py 814-862, 1032-1080 *)
  Definition hinge_p0 (h : T) (o : obs (T := T)) : result (option (list T)) :=
    let x := o_x o in let y := o_y o in
    let below := fun v => altb v h in
    let above := fun v => ageb v h in
    bind (if Nat.leb 2 (count below x) then
            let m1 := nanmedian (map2 adiv (ediff1d (pick below x y)) (ediff1d (pick below x x))) in
            Ok (m1, nanmedian (map2 (fun xi yi => xi - yi / m1) (pick below x x) (pick below x y)))
          else bind (arr_max y) (fun ymax => bind (arr_min y) (fun ymin =>
               bind (arr_max x) (fun xmax => bind (arr_min x) (fun xmin => Ok ((ymax - ymin) / (xmax - xmin), xmin))))))
      (fun m1x1 =>
    let x2 := if Nat.leb 2 (count above x) then
                let m2 := median (map2 adiv (ediff1d (pick above x y)) (ediff1d (pick above x x))) in
                median (map2 (fun xi yi => xi - yi / m2) (pick above x x) (pick above x y))
              else h in
    Ok (Some [fst m1x1; snd m1x1; x2; h])).
  (** hinge.py 1230-1279 [HingeAtPoint.p0]; np.argmin takes the first of the smallest *)
  Fixpoint nearest (xh : T) (best : T * T) (l : list (T * T)) : T :=
    match l with
    | [] => snd best
    | p :: r => nearest xh (if altb (aabs (fst p - xh)) (aabs (fst best - xh)) then p else best) r
    end.
  (** ditto: hinge.py 1230-1279 *)
  Definition hinge_at_point_p0 (xh : T) (o : obs (T := T)) : result (option (list T)) :=
    let x := o_x o in let y := o_y o in
    let below := fun v => altb v xh in
    let above := fun v => ageb v xh in
    match combine x y with
    | [] => Err ValueError
    | p :: r =>
        let yh := nearest xh p r in
        bind (arr_min x) (fun xmin =>
        let m1 := if Nat.leb 2 (count below x) then
                    nanmedian (map2 adiv (ediff1d (pick below x y)) (ediff1d (pick below x x)))
                  else if agtb xh xmin then yh / (xh - xmin) else aofZ 1 in
        let m2 := if Nat.leb 2 (count above x) then
                    median (map2 adiv (ediff1d (pick above x y)) (ediff1d (pick above x x)))
                  else aofZ 0 in
        Ok (Some [xh; yh; m1; m2]))
    end.
  (** exponentials.py 29-39, 60-71; power_laws.py 26-48, 78-100, 121-143 *)
  Definition exponential_p0 (o : obs (T := T)) : result (option (list T)) :=
    rmap (fun peak => Some [aofZ 1; peak]) (arr_max (o_y o)).
  (** ditto: exponentials.py 29-39, 60-71 *)
  Definition power_law_p0 (o : obs (T := T)) : result (option (list T)) := Ok (Some [aofZ 1; aofZ 1]).

  (* ---------------------------------------------------------------- the classes. calling [function(x, *popt)], fitfunctions/core.py 196-221, 496-555 *)
  Definition ap2 (f : T -> T -> T -> T) (p : list T) (x : T) : T := match p with [a; b] => f x a b | _ => anan end.
  (** calling [function(x, *popt)], fitfunctions/core.py 196-221, 496-555 *)
  Definition ap3 (f : T -> T -> T -> T -> T) (p : list T) (x : T) : T := match p with [a; b; c] => f x a b c | _ => anan end.
  (** calling [function(x, *popt)], fitfunctions/core.py 196-221, 496-555 *)
  Definition ap4 (f : T -> T -> T -> T -> T -> T) (p : list T) (x : T) : T := match p with [a; b; c; d] => f x a b c d | _ => anan end.
  (** the class of lines.py 14-75, its parameter names read off the curve's signature (fitfunctions/core.py 437-444) *)
  Definition Line : ffclass (T := T) := mkClass ["m"; "b"] (ap2 line) line_p0 false.
  (** the class of lines.py 78-145, its parameter names read off the curve's signature (fitfunctions/core.py 437-444) *)
  Definition LineXintercept : ffclass (T := T) := mkClass ["m"; "x0"] (ap2 line_xint) line_xint_p0 false.
  (** the class of gaussians.py 14-56, its parameter names read off the curve's signature (fitfunctions/core.py 437-444) *)
  Definition Gaussian : ffclass (T := T) := mkClass ["mu"; "sigma"; "A"] (ap3 gaussian) gaussian_p0 true.
  (** the class of gaussians.py 59-111, its parameter names read off the curve's signature (fitfunctions/core.py 437-444) *)
  Definition GaussianNormalized : ffclass (T := T) := mkClass ["mu"; "sigma"; "n"] (ap3 gaussian_normalized) gaussian_normalized_p0 true.
  (** the class of gaussians.py 114-168, its parameter names read off the curve's signature (fitfunctions/core.py 437-444) *)
  Definition GaussianLn : ffclass (T := T) := mkClass ["m"; "s"; "A"] (ap3 gaussian_ln) gaussian_ln_p0 false.
  (** the class of moyal.py 13-65, its parameter names read off the curve's signature (fitfunctions/core.py 437-444) *)
  Definition Moyal : ffclass (T := T) := mkClass ["mu"; "sigma"; "A"] (ap3 moyal) gaussian_p0 false.
  (** the class of power_laws.py 13-50, its parameter names read off the curve's signature (fitfunctions/core.py 437-444) *)
  Definition PowerLaw : ffclass (T := T) := mkClass ["A"; "b"] (ap2 power_law) power_law_p0 false.
  (** the class of exponentials.py 16-41, its parameter names read off the curve's signature (fitfunctions/core.py 437-444) *)
  Definition Exponential : ffclass (T := T) := mkClass ["c"; "A"] (ap2 exponential) exponential_p0 false.
  (** the class of heaviside.py 14-168, its parameter names read off the curve's signature (fitfunctions/core.py 437-444) *)
  Definition HeavySide (g : step_guess) : ffclass (T := T) := mkClass ["x0"; "y0"; "y1"] (ap3 heavy_side) (heavy_side_p0 g) false.
  (** the class of hinge.py 199-406, its parameter names read off the curve's signature (fitfunctions/core.py 437-444) *)
  Definition TwoLine (guess_xs : T) : ffclass (T := T) := mkClass ["x1"; "x2"; "m1"; "m2"] (ap4 twoline) (twoline_p0 guess_xs) false.
  (** the class of hinge.py 667-863, its parameter names read off the curve's signature (fitfunctions/core.py 437-444) *)
  Definition HingeMin (guess_h : T) : ffclass (T := T) := mkClass ["m1"; "x1"; "x2"; "h"] (ap4 hinge_min) (hinge_p0 guess_h) false.
  (** the class of hinge.py 1100-1280, its parameter names read off the curve's signature (fitfunctions/core.py 437-444) *)
  Definition HingeAtPoint (guess_xh : T) : ffclass (T := T) := mkClass ["xh"; "yh"; "m1"; "m2"] (ap4 hinge_at_point) (hinge_at_point_p0 guess_xh) false.
End FitFuncs.
