(** fitfunctions/trend_fits.py: what TrendFit draws and how it labels it. Drawing itself (matplotlib) is not
    modelled; the data, labels and options handed to it are. *)
From Coq Require Import List String Ascii Bool Arith ZArith.
From Verif Require Import Py PyStr Num FitCore FitFuncs TrendFit FitPlot.
Import ListNotations.
Open Scope string_scope.
Open Scope list_scope.

Section TrendPlot.
  Context {T : Type} {A : Arith T} {TT : Transc T}.
  Local Open Scope num_scope.

  (** np.isin of one element (fitfunctions/trend_fits.py 418-422); NaN is in nothing *)
  Definition isin (x : T) (l : list T) : bool := existsb (fun v => aeqb x v) l.
  (** a column of the table of fit parameters (fitfunctions/trend_fits.py 323, 420, 449): a table without rows has no columns *)
  Definition column (k : string) (p : list (T * list (string * T))) : result (list T) :=
    match p with [] => Err KeyError | _ => mapM (fun kp => dict_get k (snd kp)) p end.
  (** the observations of the trend function, fitfunctions/trend_fits.py 363-397 [make_trend_func]; [l]: its limits (383-394) *)
  Definition trend_func_obs (logx : bool) (ykey wkey : string) (l : limits (T := T)) (t : trend (T := T)) : result (used_raw (T := T)) :=
    o <- trend_obs logx ykey wkey t ;; init_obs o l.

  (** fitfunctions/trend_fits.py 417-424: which rows are kept. [used]: what the trend function was fitted to; None before make_trend_func *)
  Definition rows_in_trend (used : option (obs (T := T))) (ykey wkey : string) (p : list (T * list (string * T))) : result (list bool) :=
    match used with
    | None => Err AttributeError
    | Some u =>
        y <- column ykey p ;;
        w <- column wkey p ;;
        Ok (and_mask (and_mask (map (fun kp => isin (fst kp) (o_x u)) p) (map (fun v => isin v (o_y u)) y))
                     (map (fun v => isin v (match o_w u with Some l => l | None => [] end)) w))
    end.
  (** What is drawn: a line with a shaded band, or error bars (fitfunctions/trend_fits.py 437-477) *)
  Inductive popt_plot := Band (x y low high : list T) | Bars (x y : list T) (err : option (list T)).

  (** fitfunctions/trend_fits.py 399-487 [plot_all_popt_1d]. [intervals]: the columns are labelled by intervals (415 raises TypeError
      otherwise); [over]: the keyword wkey, if given (431; it may be None). Simplification: without a band, a parameter that does not
      exist is a KeyError (matplotlib then takes the name itself for the data). *)
  Definition plot_all_popt_1d (intervals logx only band : bool) (ykey wkey : string) (over : option (option string))
      (used : option (obs (T := T))) (t : trend (T := T)) : result popt_plot :=
    p <- popt_1d t ;;
    if negb intervals then Err TypeError else
    mask <- (if only then rows_in_trend used ykey wkey p else Ok (map (fun _ => true) p)) ;;
    let x := map (fun kp => if logx then tpow (aofZ 10) (fst kp) else fst kp) (select mask p) in
    let wk := match over with Some k => k | None => Some wkey end in
    match band, wk with
    | true, None => Err NotImplementedError
    | true, Some k =>
        y <- rmap (select mask) (column ykey p) ;;
        w <- rmap (select mask) (column k p) ;;
        Ok (Band x y (map2 asub y w) (map2 aadd y w))
    | false, _ =>
        y <- rmap (select mask) (column ykey p) ;;
        e <- (match wk with Some k => rmap (fun w => Some (select mask w)) (column k p) | None => Ok None end) ;;
        Ok (Bars x y e)
    end.

  (** fitfunctions/trend_fits.py 320-358 [plot_all_ffuncs]: which figure's legend says "In Fit" *)
  Definition in_fit (ykey wkey : string) (used : option (obs (T := T))) (t : trend (T := T)) : result (list (T * bool)) :=
    p <- popt_1d t ;;
    yv <- column ykey p ;;
    wv <- column wkey p ;;
    match used with
    | None => Err AttributeError
    | Some u =>
        y0 <- arr_min (o_y u) ;;
        y1 <- arr_max (o_y u) ;;
        match o_w u with
        | None => Err AttributeError
        | Some us =>
            w0 <- arr_min us ;;
            w1 <- arr_max us ;;
            let y_ok := map (fun v => aleb y0 v && aleb v y1) yv in
            let w_ok := map (fun v => aleb w0 v && aleb v w1) wv in
            Ok (combine (map fst p) (and_mask y_ok w_ok))
        end
    end.
End TrendPlot.
Arguments Band {T}. Arguments Bars {T}.

(** matplotlib's other names of the properties of a line (mpl.lines.Line2D._alias_map, used in fitfunctions/trend_fits.py 432) *)
Definition line_alias (k : string) : string :=
  match find (fun e => String.eqb (fst e) k)
    [("aa", "antialiased"); ("c", "color"); ("ds", "drawstyle"); ("ls", "linestyle"); ("lw", "linewidth"); ("mec", "markeredgecolor");
     ("mew", "markeredgewidth"); ("mfc", "markerfacecolor"); ("mfcalt", "markerfacecoloralt"); ("ms", "markersize")] with
  | Some (_, full) => full
  | None => k
  end.
(** mpl.cbook.normalize_kwargs (fitfunctions/trend_fits.py 432): full names; a property given twice is a TypeError *)
Fixpoint normalize_kwargs (kw seen : list (string * string)) : result (list (string * string)) :=
  match kw with
  | [] => Ok seen
  | (k, v) :: r => if mem_str (line_alias k) (map fst seen) then Err TypeError
                   else normalize_kwargs r (seen ++ [(line_alias k, v)])
  end.
(** dict.pop with a default (fitfunctions/trend_fits.py 433-435) *)
Definition pop (k d : string) (kw : list (string * string)) : string * list (string * string) :=
  (match find (fun e => String.eqb (fst e) k) kw with Some (_, v) => v | None => d end,
   filter (fun e => negb (String.eqb (fst e) k)) kw).
(** a call with keyword arguments of its own and others passed on: TypeError if one is given twice (fitfunctions/trend_fits.py 452, 468-477) *)
Definition call_with (own more : list (string * string)) : result (list (string * string)) :=
  if existsb (fun e => mem_str (fst e) (map fst own)) more then Err TypeError else Ok (own ++ more).
(** fitfunctions/trend_fits.py 432-435, 452, 468-477: the options of the line or of the error bars (data arguments left out) *)
Definition popt_style (band : bool) (kw : list (string * string)) : result (list (string * string)) :=
  kw <- normalize_kwargs kw [] ;;
  let '(color, kw) := pop "color" "cyan" kw in
  let '(linestyle, kw) := pop "ls" "--" kw in
  let '(label, kw) := pop "label" "1D Fits" kw in
  if band then call_with [("label", label); ("color", color)] kw
  else call_with [("color", color); ("linestyle", linestyle); ("label", label)] kw.

(** the options plot_trend_fit_resid looks at (fitfunctions/trend_fits.py 489-499): the rest of its keyword arguments go nowhere *)
Definition trend_resid_style (kw : list (string * string)) : list (string * string) :=
  let '(annotate, kw) := pop "annotate_kwargs" "xloc=0.5, yloc=0.1, va=bottom" kw in
  let '(used, kw) := pop "used_kwargs" "color=k" kw in
  let '(drawstyle, kw) := pop "drawstyle" "default" kw in
  [("drawstyle", drawstyle); ("annotate_kwargs", annotate); ("used_kwargs", used)].

(** fitfunctions/trend_fits.py 560-582 [set_shared_labels]: the trend's labels, then every 1d fit's. A z label that has not been set
    is passed on as None and prints as such (fitfunctions/plots.py 78-81). *)
Definition set_shared_labels (kw : list (string * axis_label)) (tf : ff_axes) (ffs : list ff_axes) : result (ff_axes * list ff_axes) :=
  tf' <- ff_set_label kw tf ;;
  let z := match ax_z tf' with Some z => z | None => LPlain "None" end in
  ffs' <- mapM (ff_set_label [("x", ax_y tf'); ("y", z)]) ffs ;;
  Ok (tf', ffs').
