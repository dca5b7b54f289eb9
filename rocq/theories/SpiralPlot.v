(** plotting/spiral.py 424-1074 [SpiralPlot2D]: the plot object around the adaptive mesh. Not modelled: matplotlib, scipy's interpolation,
    logging, timing, the colour limits of [_limit_color_norm]. *)
From Coq Require Import List Bool Arith ZArith String.
From Verif Require Import Py PyStr Num Sort Activity Hist Spiral HistPlot Hist2DPlot.
Import ListNotations.
Open Scope list_scope.
Open Scope py_scope.

Section SpiralPlot.
  Context {T : Type} {A : Arith T} {TR : Transc T}.
  Local Open Scope num_scope.

  (** A SpiralMesh as its plot sees it: [sm_placed] are its cells and the bin numbers, None while they have not been computed; [sm_cat] is the
      categorical, None before build_cat succeeded; the two filter thresholds (65-70, 139-161). plotting/spiral.py 65-422 *)
  Record smesh := mkMesh { sm_placed : option (list (box T) * list Z); sm_cat : option (list Z); sm_size : option (nat * nat); sm_dens : option (nat * nat) }.
  (** a SpiralPlot2D: [sp_mesh] and [sp_groups] are None while the attributes do not exist; the groups hold the cell numbers and the z column they were built from. plotting/spiral.py 433-456 *)
  Record splot := mkPlot { sp_logx : bool; sp_logy : bool; sp_data : list (T * T * T); sp_ex : list T; sp_ey : list T;
                           sp_clim : option T * option T; sp_mesh : option smesh; sp_groups : option (list Z * list T) }.
  (** spiral.py 514-555: the bins of one axis, a number or an array of edges *)
  Inductive axis_bins := Bins (n : nat) | Edges (l : list T).
  (** ditto: spiral.py 514-555 *)
  Definition initial_edges (b : axis_bins) (d : list T) : result (list T) :=
    match b with Bins n => default_edges n d | Edges l => rmap fst (explicit_edges l) end.
  (** spiral.py 433-441, 580-587 [__init__] (without clipping) *)
  Definition new_spiral (lx ly : bool) (xs ys : list T) (zs : option (list T)) (nx ny : axis_bins) : result splot :=
    data <- set_data2 lx ly xs ys zs ;;
    ex <- initial_edges nx (map (fun r => fst (fst r)) data) ;;
    ey <- initial_edges ny (map (fun r => snd (fst r)) data) ;;
    Ok (mkPlot lx ly data ex ey (None, None) None None).
  (** ditto: spiral.py 433-441, 580-587 *)
  Definition points (s : splot) : list (T * T) := map fst (sp_data s).
  (** ditto: spiral.py 433-441, 580-587 *)
  Definition zvalues (s : splot) : list T := map snd (sp_data s).
  (** spiral.py 557-570 *)
  Definition with_mesh (s : splot) (m : smesh) : splot :=
    mkPlot (sp_logx s) (sp_logy s) (sp_data s) (sp_ex s) (sp_ey s) (sp_clim s) (Some m) (sp_groups s).

  (** spiral.py 557-570 [initialize_mesh]: the new mesh is attached before its cells are computed (567), the groups stay. [sched] is the order of
      the parallel writes; None: the division of cells has not ended within [fuel] passes. An exception leaves what was done until then. *)
  Definition initialize (fuel m : nat) (sched : list (nat * Z) -> list (nat * Z)) (s : splot) : option (splot * option exn) :=
    match generate_mesh fuel m (sp_ex s) (sp_ey s) (points s) with
    | Err e => Some (with_mesh s (mkMesh None None None None), Some e)
    | Ok None => None
    | Ok (Some cells) =>
        let zbin := run_writes (List.length (points s)) (sched (writes cells (points s))) in
        match build_cat zbin with
        | Err e => Some (with_mesh s (mkMesh (Some (cells, zbin)) None None None), Some e)
        | Ok cat => Some (with_mesh s (mkMesh (Some (cells, zbin)) (Some cat) None None), None)
        end
    end.
  (** spiral.py 499-512 [build_grouped] *)
  Definition build_grouped (s : splot) : result splot :=
    match sp_mesh s with
    | None => Err AttributeError
    | Some m => match sm_cat m with
                | None => Err AttributeError
                | Some cat => if Nat.eqb (List.length cat) (List.length (zvalues s))
                              then Ok (mkPlot (sp_logx s) (sp_logy s) (sp_data s) (sp_ex s) (sp_ey s) (sp_clim s) (sp_mesh s) (Some (cat, zvalues s)))
                              else Err ValueError
                end
    end.
  (** spiral.py 572-578 [set_clim] *)
  Definition set_clim (lo hi : option T) (s : splot) : splot :=
    mkPlot (sp_logx s) (sp_logy s) (sp_data s) (sp_ex s) (sp_ey s) (lo, hi) (sp_mesh s) (sp_groups s).
  (** spiral.py 139-161 [mesh.set_cell_filter_thresholds]: a threshold not given is switched off *)
  Definition set_filter (size dens : option (nat * nat)) (s : splot) : result splot :=
    match sp_mesh s with
    | None => Err AttributeError
    | Some m => Ok (with_mesh s (mkMesh (sm_placed m) (sm_cat m) size dens))
    end.

  (** spiral.py 580-587, base.py 264-278 [set_data] on an existing plot: nothing but the data changes *)
  Definition replace_data (xs ys : list T) (zs : option (list T)) (s : splot) : result splot :=
    data <- set_data2 (sp_logx s) (sp_logy s) xs ys zs ;;
    Ok (mkPlot (sp_logx s) (sp_logy s) data (sp_ex s) (sp_ey s) (sp_clim s) (sp_mesh s) (sp_groups s)).

  (** spiral.py 459-497 [agg]: the default is chosen by the present data (464-467), the groups are those built last *)
  Definition agg (f : fcn (T := T)) (s : splot) : result (list T) :=
    match sp_groups s with
    | None => Err AttributeError
    | Some (cat, z) =>
        match sp_mesh s with
        | None => Err AttributeError
        | Some m =>
            match sm_placed m with
            | None => Err AttributeError
            | Some (cells, zbin) =>
                keep <- cell_filter (sm_size m) (sm_dens m) cells zbin ;;
                spiral_agg (FOther (the_fcn f (zvalues s))) (sp_clim s) keep (List.length cells) cat z
            end
        end
    end.
  (** spiral.py 90-92, 456-457 *)
  Definition cells_of (s : splot) : list (box T) :=
    match sp_mesh s with Some m => match sm_placed m with Some (cells, _) => cells | None => [] end | None => [] end.
  (** spiral.py 612-654, 924-984 *)
  Definition delog (lg : bool) (v : T) : T := if lg then exp10 v else v.

  (** spiral.py 612-654 [make_plot]: one rectangle per cell: lower left corner, width, height, and its (masked) value *)
  Record patch := mkPatch { pt_x : T; pt_y : T; pt_w : T; pt_h : T; pt_v : option T }.
  (** ditto: spiral.py 612-654 *)
  Definition patch_of (s : splot) (c : box T) (v : T) : patch :=
    let x0 := delog (sp_logx s) (bx0 c) in let x1 := delog (sp_logx s) (bx1 c) in
    let y0 := delog (sp_logy s) (by0 c) in let y1 := delog (sp_logy s) (by1 c) in
    mkPatch x0 y0 (x1 - x0) (y1 - y0) (masked v).
  (** ditto: spiral.py 612-654 *)
  Definition draw (f : fcn (T := T)) (s : splot) : result (list patch) :=
    C <- agg f s ;;
    if Nat.eqb (List.length C) (List.length (cells_of s)) then Ok (map (fun cv => patch_of s (fst cv) (snd cv)) (combine (cells_of s) C))
    else Err ValueError.
  (** spiral.py 694-711 [make_plot(alpha_fcn=...)]: one opacity per rectangle *)
  Definition face_alpha (alpha_fcn : fcn (T := T)) (s : splot) : result (list T) := rmap opacity (agg alpha_fcn s).

  (** spiral.py 924-984 [plot_contours]: the points whose values are interpolated: the middles of the cells with a finite value; [None] as method is
      any other string *)
  Inductive contour_method := Rbf | Grid | Tricontour.
  (** ditto: spiral.py 924-984 *)
  Definition method_of (name : string) : result contour_method :=
    if String.eqb name "rbf" then Ok Rbf else if String.eqb name "grid" then Ok Grid else if String.eqb name "tricontour" then Ok Tricontour else Err ValueError.
  (** ditto: spiral.py 924-984 *)
  Definition middle (a b : T) : T := (a + b) / aofZ 2.
  (** ditto: spiral.py 924-984 *)
  Definition contour_points (name : string) (f : fcn (T := T)) (s : splot) : result (list (T * T * T)) :=
    _ <- method_of name ;;
    C <- agg f s ;;
    if Nat.eqb (List.length C) (List.length (cells_of s)) then
      Ok (filter (fun p => aisfin (snd p))
        (map (fun cv => (delog (sp_logx s) (middle (bx0 (fst cv)) (bx1 (fst cv))), delog (sp_logy s) (middle (by0 (fst cv)) (by1 (fst cv))), snd cv))
             (combine (cells_of s) C)))
    else Err ValueError.
End SpiralPlot.
Arguments smesh : clear implicits.
Arguments splot : clear implicits.
Arguments patch : clear implicits.
Arguments axis_bins : clear implicits.
