(** fitfunctions/plots.py: what plot_raw, plot_used, plot_fit and plot_raw_used_fit draw, and tex_info.py: the annotation. Values of
    drawing options are texts. Axis formatting and the legend are not modelled; nothing is said about what remains on the axes after an error. *)
From Coq Require Import List String Bool Arith ZArith.
From Verif Require Import Py PyStr Num FitCore FitPlot TrendPlot.
Import ListNotations.
Open Scope string_scope.
Open Scope list_scope.

(** keyword arguments. fitfunctions/plots.py 217-528 *)
Definition kws : Type := list (string * string).
(** matplotlib's other names of the properties of a collection (mpl.collections.Collection._alias_map, used in fitfunctions/plots.py 252, 268, 289) *)
Definition coll_alias (k : string) : string :=
  match find (fun e => String.eqb (fst e) k)
    [("antialiaseds", "antialiased"); ("aa", "antialiased"); ("edgecolors", "edgecolor"); ("ec", "edgecolor"); ("facecolors", "facecolor");
     ("fc", "facecolor"); ("linestyles", "linestyle"); ("dashes", "linestyle"); ("ls", "linestyle"); ("linewidths", "linewidth"); ("lw", "linewidth");
     ("transOffset", "offset_transform")] with
  | Some (_, full) => full
  | None => k
  end.
(** mpl.cbook.normalize_kwargs (fitfunctions/plots.py 232, 268, 289): full names; a property given twice is a TypeError *)
Fixpoint norm (alias : string -> string) (kw seen : kws) : result kws :=
  match kw with
  | [] => Ok seen
  | (k, v) :: r => if mem_str (alias k) (map fst seen) then Err TypeError else norm alias r (seen ++ [(alias k, v)])
  end.
(** a row of [kwargs.pop(k, d)] (fitfunctions/plots.py 236-237, 323-328, 434-436): the values under their names, and what is left *)
Fixpoint pops (ds kw : kws) : kws * kws :=
  match ds with
  | [] => ([], kw)
  | (k, d) :: r => let '(v, kw) := pop k d kw in let '(own, kw) := pops r kw in ((k, v) :: own, kw)
  end.
(** the value just popped. fitfunctions/plots.py 236, 271 *)
Definition get (k : string) (own : kws) : string := fst (pop k "" own).

(** the default look of observations. fitfunctions/plots.py 201-215, 236-237, 323-328 *)
Definition raw_look : kws := [("color", "k"); ("label", "$\mathrm{Obs}$")].
(** ditto: fitfunctions/plots.py 201-215, 236-237, 323-328 *)
Definition used_look : kws := [("color", "forestgreen"); ("marker", "P"); ("markerfacecolor", "none"); ("markersize", "8"); ("label", "$\mathrm{Used}$")].
(** the default look of the fit. fitfunctions/plots.py 434-436 *)
Definition fit_look : kws := [("color", "darkorange"); ("label", "$\mathrm{Fit}$"); ("linestyle", "(0, (7, 3, 1, 3, 1, 3, 1, 3))")].

(** which points are marked: all of them, as asked for, or every so many (None: all). fitfunctions/plots.py 327, 337-338 *)
Inductive marks := MarksAll | MarksAsked (v : string) | MarksEvery (n : option Z).

(** The keyword arguments of plot_raw and plot_used. fitfunctions/plots.py 217, 312: [q_window] is plot_window; [q_edge] edge_kwargs; [q_wkw]
    window_kwargs; [q_kw] the others *)
Record ff_opts := mkOpts { q_window : bool; q_edge : option kws; q_wkw : kws; q_kw : kws }.

Section Draw.
  Context {T : Type} {A : Arith T}.
  (** what is drawn, in order. fitfunctions/plots.py 217-456, fitfunctions/tex_info.py 350-387 *)
  Inductive piece :=
  | Curve (x y : list T) (style : kws) (m : marks)
  | Window (xlh : list (T * T * T)) (style : kws)
  | ErrorBars (x y : list T) (err : option (list T)) (style : kws) (m : marks)
  | Note (style : kws).

  (** fitfunctions/plots.py 251-308 and 340-424: a line with a window (and its edges), or error bars *)
  Definition draw_obs (own rest : kws) (m : marks) (q : ff_opts) (o : obs (T := T)) : result (list piece) :=
    if q_window q then
      bind (norm coll_alias (q_wkw q) []) (fun wk =>
      let '(wown, wk) := pops [("color", get "color" own); ("alpha", "0.15")] wk in
      let w := ff_window o in
      bind (match q_edge q with
            | None => Ok []
            | Some ek =>
                bind (norm coll_alias ek []) (fun ek =>
                let '(eown, ek) := pops [("color", get "color" wown)] ek in
                Ok [Curve (map (fun p => fst (fst p)) w) (map (fun p => snd (fst p)) w) (eown ++ ek) MarksAll;
                    Curve (map (fun p => fst (fst p)) w) (map snd w) (eown ++ ek) MarksAll])
            end) (fun edges =>
      Ok (Curve (o_x o) (o_y o) (own ++ rest) m :: Window w (wown ++ wk) :: edges)))
    else Ok [ErrorBars (o_x o) (o_y o) (o_w o) (own ++ rest) m].
  (** fitfunctions/plots.py 217-310 [plot_raw] *)
  Definition plot_raw (p : ffplot (T := T)) (q : ff_opts) : result (list piece) :=
    bind (norm line_alias (q_kw q) []) (fun kw =>
    let '(own, rest) := pops raw_look kw in
    draw_obs own rest MarksAll q (u_raw (p_obs p))).
  (** fitfunctions/plots.py 312-424 [plot_used]; markevery=None counts as not given *)
  Definition plot_used (p : ffplot (T := T)) (q : ff_opts) : result (list piece) :=
    bind (norm line_alias (q_kw q) []) (fun kw =>
    let '(own, rest) := pops used_look kw in
    let '(me, rest) := pop "markevery" "None" rest in
    let m := if String.eqb me "None" then MarksEvery (markevery (List.length (o_x (u_used (p_obs p))))) else MarksAsked me in
    draw_obs own rest m q (u_used (p_obs p))).
  (** fitfunctions/tex_info.py 350-387 [annotate_info]: [ax.text] has those of the arguments that come last by name *)
  Definition annotate_info (kw : kws) : result piece :=
    let '(own, rest) := pops [("bbox", "color=wheat, alpha=0.75"); ("xloc", "1.1"); ("yloc", "0.95"); ("ha", "left"); ("va", "top"); ("transform", "ax.transAxes")] kw in
    rmap Note (call_with [("x", get "xloc" own); ("y", get "yloc" own); ("bbox", get "bbox" own); ("horizontalalignment", get "ha" own);
                          ("verticalalignment", get "va" own); ("transform", get "transform" own)] rest).
  (** fitfunctions/plots.py 426-456 [plot_fit]; [info]: TeX_info has been set *)
  Definition plot_fit (p : ffplot (T := T)) (info annotate : bool) (akw : kws) (kw : kws) : result (list piece) :=
    bind (norm line_alias kw []) (fun kw =>
    let '(own, rest) := pops fit_look kw in
    let curve := Curve (o_x (u_raw (p_obs p))) (p_yfit p) (own ++ rest) MarksAll in
    if annotate then if info then rmap (fun n => [curve; n]) (annotate_info akw) else Err AttributeError else Ok [curve]).
  (** [f(drawstyle=..., **kw)]: TypeError if the options have one too. fitfunctions/plots.py 513-514 *)
  Definition with_drawstyle (ds : string) (q : ff_opts) : result ff_opts :=
    if mem_str "drawstyle" (map fst (q_kw q)) then Err TypeError
    else Ok (mkOpts (q_window q) (q_edge q) (q_wkw q) (("drawstyle", ds) :: q_kw q)).
  (** fitfunctions/plots.py 217, 498-504: what is not given *)
  Definition default_opts : ff_opts := mkOpts true None [] [].
  (** fitfunctions/plots.py 458-528 [plot_raw_used_fit] *)
  Definition plot_raw_used_fit (p : ffplot (T := T)) (info : bool) (drawstyle : option string) (annotate : bool)
      (raw used : option ff_opts) (fit annot : option kws) : result (list piece * list piece * list piece) :=
    let given (o : option ff_opts) := match o with Some q => q | None => default_opts end in
    let ds := match drawstyle with Some s => s | None => "steps-mid" end in
    bind (with_drawstyle ds (given raw)) (fun qr =>
    bind (plot_raw p qr) (fun r =>
    bind (with_drawstyle ds (given used)) (fun qu =>
    bind (plot_used p qu) (fun u =>
    bind (plot_fit p info annotate (match annot with Some k => k | None => [] end) (match fit with Some k => k | None => [("zorder", "2.2")] end)) (fun f =>
    Ok (r, u, f)))))).
End Draw.
