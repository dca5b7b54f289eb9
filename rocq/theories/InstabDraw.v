(** instabilities/verscharen2016.py: StabilityContours: the threshold curves and how plot_contours draws them. *)
From Coq Require Import List String Bool Arith ZArith.
From Verif Require Import Py PyStr Num Instability TrendPlot FFDraw.
Import ListNotations.
Open Scope string_scope.
Open Scope list_scope.

(** instabilities/verscharen2016.py 24-28, 67-100: rows (after unstack, in order) and columns of the curves *)
Definition contour_rates : list Z := [-4; -3; -2]%Z.
(** ditto: instabilities/verscharen2016.py 24-28, 67-100 *)
Definition contour_kinds : list inst := [AIC; FMW; MM; OFI].
(** instabilities/verscharen2016.py 67-100 [_plot_contour_kwargs] *)
Definition contour_look (g : Z) (i : inst) : kws :=
  [("color", match i with AIC => "#ffcb05" | FMW => "#00B2A9" | MM => "#00274c" | OFI => "#D86018" end);
   ("linestyle", if Z.eqb g (-4) then "--" else if Z.eqb g (-3) then ":" else "-.");
   ("marker", match i with AIC => "X" | FMW => "d" | MM => "o" | OFI => "P" end)].
(** instabilities/verscharen2016.py 499-501: the column of that name *)
Definition kind_named (s : string) : option inst := find (fun i => String.eqb (inst_name i) s) contour_kinds.

(** tk_kind: None, one text, or a list whose elements need not be texts. instabilities/verscharen2016.py 493-501 *)
Inductive tk_item := TkText (s : string) | TkOther.
(** ditto: instabilities/verscharen2016.py 493-501 *)
Inductive tk_arg := TkNone | TkOne (s : string) | TkMany (l : list tk_item).
(** instabilities/verscharen2016.py 493-505; [upper] is str.upper. Simplification: a name given twice is not modelled as special *)
Definition tk_columns (upper : string -> string) (tk : tk_arg) : result (list inst) :=
  let chosen l :=
    if negb (forallb (fun x => match x with TkText _ => true | TkOther => false end) l) then Err TypeError
    else let names := map (fun x => match x with TkText s => upper s | TkOther => "" end) l in
         mapM (fun n => match kind_named n with Some i => Ok i | None => Err ValueError end) names in
  match tk with TkNone => Ok contour_kinds | TkOne s => chosen [TkText s] | TkMany l => chosen l end.

Section InstabDraw.
  Context {T : Type} {A : Arith T} {TT : Transc T}.
  (** one curve handed to ax.plot. instabilities/verscharen2016.py 521-531 *)
  Record curve := mkCurve { v_rate : Z; v_kind : inst; v_x : list T; v_y : list T; v_style : kws }.
  (** instabilities/verscharen2016.py 539-548: the table of handles by row and column (blank patches where there is no curve and for texts), or the
      curves' own labels under a title *)
  Inductive contour_legend := Table (entries : list (string * option curve)) | Named (rate : Z).
  (** what plot_contours leaves on the axes. instabilities/verscharen2016.py 465-548 *)
  Record contour_plot := mkContours { cp_curves : list curve; cp_log : bool; cp_legend : contour_legend }.

  (** instabilities/verscharen2016.py 447-459 [_calc_instability_contours] *)
  Definition contour_values (beta : list T) (g : Z) (i : inst) : list T :=
    match insta_params g i with Some p => map (beta_ani_inst p) beta | None => [] end.
  (** instabilities/verscharen2016.py 518-533: one curve *)
  Definition draw_contour (beta : list T) (own rest : kws) (gi : Z * inst) : result curve :=
    let '(g, i) := gi in
    rmap (mkCurve g i beta (contour_values beta g i))
      (call_with ([("markevery", get "markevery" own); ("ms", get "markersize" own); ("mew", get "markeredgewidth" own); ("mec", get "markeredgecolor" own)] ++
                  contour_look g i ++ [("label", inst_name i)]) rest).
  (** instabilities/verscharen2016.py 508-516: the loop, in which an unknown rate is noticed *)
  Fixpoint draw_contours (beta : list T) (own rest : kws) (plot_gamma : option Z) (l : list (Z * inst)) : result (list curve) :=
    match l with
    | [] => Ok []
    | gi :: r =>
        match plot_gamma with
        | Some g => if negb (existsb (Z.eqb g) [-2; -3; -4]%Z) then Err AssertionError
                    else if negb (Z.eqb (fst gi) g) then draw_contours beta own rest plot_gamma r
                    else bind (draw_contour beta own rest gi) (fun c => rmap (cons c) (draw_contours beta own rest plot_gamma r))
        | None => bind (draw_contour beta own rest gi) (fun c => rmap (cons c) (draw_contours beta own rest plot_gamma r))
        end
    end.
  (** images.loc[g, i] (the last one drawn). instabilities/verscharen2016.py 533, 574-587 *)
  Definition image (cs : list curve) (g : Z) (i : inst) : option curve :=
    find (fun c => Z.eqb (v_rate c) g && String.eqb (inst_name (v_kind c)) (inst_name i)) (rev cs).
  (** instabilities/verscharen2016.py 550-623 [_add_table_legend]: labels beside handles *)
  Definition table_legend (cs : list curve) : list (string * option curve) :=
    combine (["" ; "$\mathrm{AIC}$"; "$\mathrm{FMW}$"; "$\mathrm{MM}$"; "$\mathrm{OFI}$"] ++ ["$-2$"; ""; ""; ""; ""] ++ ["$-3$"; ""; ""; ""; ""] ++ ["$-4$"; ""; ""; ""; ""])
      ([None; None; None; None; None] ++ flat_map (fun g => [None; image cs g MM; image cs g AIC; image cs g FMW; image cs g OFI]) [-2; -3; -4]%Z).
  (** the defaults of the markers. instabilities/verscharen2016.py 487-491 *)
  Definition contour_markers : kws := [("markersize", "10"); ("markeredgewidth", "0.5"); ("markeredgecolor", "k"); ("markevery", "10")].
  (** instabilities/verscharen2016.py 465-548 [plot_contours]; [has_iteritems]: pandas still has Series.iteritems (before 2.0). [plot_gamma] is
      an integer already *)
  Definition plot_contours (has_iteritems : bool) (upper : string -> string) (beta : list T) (fix_scale : bool) (plot_gamma : option Z)
      (tk : tk_arg) (kw : kws) : result contour_plot :=
    bind (norm line_alias kw []) (fun kw =>
    let '(own, rest) := pops contour_markers kw in
    bind (tk_columns upper tk) (fun cols =>
    if negb has_iteritems then Err AttributeError
    else bind (draw_contours beta own rest plot_gamma (flat_map (fun g => map (pair g) cols) contour_rates)) (fun cs =>
    Ok (mkContours cs fix_scale (match plot_gamma with None => Table (table_legend cs) | Some g => Named g end))))).
End InstabDraw.
