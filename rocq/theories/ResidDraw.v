(** fitfunctions/plots.py: how plot_residuals draws its curves, and how the axes of all plots are formatted. *)
From Coq Require Import List String Bool Arith ZArith.
From Verif Require Import Py PyStr Num FitCore FitPlot TrendPlot FFDraw.
Import ListNotations.
Open Scope string_scope.
Open Scope list_scope.

(** fitfunctions/plots.py 564-570: the defaults of all residual curves *)
Definition resid_look : kws := [("drawstyle", "steps-mid"); ("markerfacecolor", "none"); ("markersize", "8"); ("markevery", "None"); ("label", "")].
(** fitfunctions/plots.py 581-583: of a single one *)
Definition single_look : kws := [("color", "forestgreen"); ("marker", "P"); ("linestyle", "-")].
(** fitfunctions/plots.py 626-628, 642-644: the fixed options of each of the two. *)
Definition simple_look : kws := [("color", "forestgreen"); ("marker", "P"); ("linestyle", "-")].
(** ditto: fitfunctions/plots.py 626-628, 642-644 *)
Definition robust_look : kws := [("color", "darkorange"); ("marker", "X"); ("linestyle", "-")].
(** the options as passed to ax.plot: with the text of the legend made from the label, and markevery apart. fitfunctions/plots.py 586-606 *)
Definition relabel (f : string -> string) (st : kws) : kws :=
  map (fun e => if String.eqb (fst e) "label" then ("label", f (snd e)) else e) (filter (fun e => negb (String.eqb (fst e) "markevery")) st).

Section ResidDraw.
  Context {T : Type} {A : Arith T}.
  (** fitfunctions/plots.py 530-652 [plot_residuals]; [kind] after lower(), [title] is str.title; markevery=None counts as not given *)
  Definition draw_residuals (title : string -> string) (p : ffplot (T := T)) (pct : bool) (kind : string) (kw : kws) : result (list (piece (T := T))) :=
    let x := o_x (u_used (p_obs p)) in
    bind (norm line_alias kw []) (fun kw =>
    let '(own, rest) := pops resid_look kw in
    let me := get "markevery" own in
    let m := if String.eqb me "None" then MarksEvery (markevery (List.length x)) else MarksAsked me in
    if mem_str kind ["simple"; "robust"] then
      bind (ff_residuals p pct (String.eqb kind "robust")) (fun r =>
      let '(own', rest) := pops single_look rest in
      Ok [Curve x r (relabel (fun l => resid_label_one l (title kind)) (own ++ own' ++ rest)) m])
    else if String.eqb kind "both" then
      bind (ff_residuals p pct false) (fun r =>
      bind (call_with simple_look (relabel (fun l => resid_label_both l "Simple") (own ++ rest))) (fun st =>
      match ff_residuals p pct true with
      | Ok r' => bind (call_with robust_look (relabel (fun l => resid_label_both l "Robust") (own ++ rest))) (fun st' => Ok [Curve x r st m; Curve x r' st' m])
      | Err AttributeError => Ok [Curve x r st m]
      | Err e => Err e
      end))
    else Ok []).
End ResidDraw.

(** a scale of an axis. fitfunctions/plots.py 158-161, 176-181 *)
Inductive scale := Linear | Log | SymLog (linthresh : Z).
(** the parts of axes that formatting sets (the grid, the data limits and the hiding of inner labels are left out). fitfunctions/plots.py 142-193 *)
Record axes := mkAx { ac_xlabel : axis_label; ac_ylabel : axis_label; ac_xscale : scale; ac_yscale : scale; ac_ylim : option (Z * Z) }.
(** fitfunctions/plots.py 142-168 [_format_hax] *)
Definition format_hax (a : ff_axes) (x : axes) : axes :=
  mkAx (ax_x a) (ax_y a) (if ax_logx a then Log else ac_xscale x) (if ax_logy a then Log else ac_yscale x) (ac_ylim x).
(** fitfunctions/plots.py 170-193 [_format_rax] *)
Definition format_rax (a : ff_axes) (pct : bool) (x : axes) : axes :=
  mkAx (ax_x a) (LPlain (if pct then "$\mathrm{Residual} \; [\%]$" else "$\mathrm{Residual} \; [\#]$")) (if ax_logx a then Log else ac_xscale x)
    (if pct then SymLog 10 else ac_yscale x) (if pct then Some (-100, 100)%Z else ac_ylim x).
(** which formatting each of the plots ends with: fitfunctions/plots.py 308, 422, 454, 525 (the observations, the fit, and all three), 654 *)
Inductive fit_plot := PlotRaw | PlotUsed | PlotFit | PlotRawUsedFit | PlotResiduals (pct : bool).
(** ditto: fitfunctions/plots.py 308, 422, 454, 525, 654 *)
Definition format_plot (k : fit_plot) (a : ff_axes) (x : axes) : axes :=
  match k with PlotResiduals pct => format_rax a pct x | _ => format_hax a x end.
