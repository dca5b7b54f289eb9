(** plotting/orbits.py: projections of a 2D orbit histogram and the lines of a 1D one. Extends [Orbits]. *)
From Coq Require Import List String Bool Arith ZArith.
From Verif Require Import Py PyStr Num Activity Hist HistPlot Icme Orbits.
Import ListNotations.
Open Scope string_scope.
Open Scope list_scope.

Section Projection.
  Context {T : Type} {A : Arith T} {TR : Transc T}.
  Local Open Scope num_scope.
  (** the OrbitHist1D that orbits.py 251-261 makes: its data (x on the axis' scale, see hist1d.py 106-114), bins, logarithmic
      axis and labels *)
  Record proj := mkProj { pr_rows : list (T * T); pr_edges : list T; pr_log : bool; pr_xlabel : string; pr_ylabel : string }.
  (** plotting/orbits.py 209-263 [OrbitHist2D.project_1d]; [on_x]: axis="x". [labels]: those of x, y and z. The edges and the
      log flags are kept for x and y only, so weights end in a KeyError. Labels are texts. *)
  Definition orbit_project (on_x counts logx logy : bool) (bx by_ : list T) (labels : string * string * string)
      (data : list (T * T * T)) : result proj :=
    let z := map snd data in
    let weighted := Nat.leb 2 (List.length (distinct (filter notnan z)) + if existsb aisnan z then 1 else 0) in (* 230: unique() has one NaN *)
    let lg := if on_x then logx else logy in
    let xs := map (fun r => let v := if on_x then fst (fst r) else snd (fst r) in if lg then exp10 v else v) data in (* 238-242 *)
    let other_label := if weighted then snd labels else if on_x then snd (fst labels) else fst (fst labels) in
    let own_label := if on_x then fst (fst labels) else snd (fst labels) in
    let eo := if on_x then by_ else bx in
    let lo := if on_x then logy else logx in
    let masked v := if aleb (nth 0 eo anan) v && aleb v (last eo anan) then (if lo then exp10 v else v) else anan in (* 245-251 *)
    bind (if counts then Ok None
          else if weighted then Err KeyError
          else Ok (Some (map (fun r => masked (if on_x then snd (fst r) else fst (fst r))) data))) (fun ys =>
    Ok (mkProj (set_data1 lg xs ys) (if on_x then bx else by_) lg own_label other_label)).
  (** plotting/orbits.py 81-103 on it: its value per bin and leg *)
  Definition proj_table (p : proj) (ls : list (option leg)) : result (list ((nat * leg) * T)) :=
    orbit_agg1 N1None (None, None) (pr_edges p) FDefault (pr_rows p) ls.

  (** plotting/orbits.py 105-133 [OrbitHist1D.make_plot]: one line per leg, labelled with it, steps by default *)
  Record leg_line := mkLine { ll_label : leg; ll_style : string; ll_points : list (T * T) }.
  (** ditto: plotting/orbits.py 105-133 *)
  Definition orbit_lines (norm : axnorm1) (lg : bool) (clim : option T * option T) (b : list T) (f : fcn) (style : option string)
      (data : list (T * T)) (ls : list (option leg)) : result (list leg_line) :=
    rmap (fun t =>
      let st := match style with Some s => s | None => "steps-mid" end in
      let x i := let m := mid (nth i (intervals b) (anan, anan)) in if lg then exp10 m else m in
      map (fun l => mkLine l st (map (fun i => (x i, leg_value nat Nat.eqb t i l)) (bins b))) [Inbound; Outbound])
    (orbit_agg1 norm clim b f data ls).
End Projection.
