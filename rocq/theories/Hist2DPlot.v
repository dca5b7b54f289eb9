(** What a 2D histogram plot draws: plotting/hist2d.py (make_plot, _prep_agg_for_plot, plot_contours, plot_hist_with_contours,
    make_joint_h2_h1_plot, set_axnorm, set_labels), plotting/hist1d.py (set_axnorm), plotting/agg_plot.py (edges),
    instabilities/beta_ani.py. The drawing itself is matplotlib's: the model gives the arrays handed to it. *)
From Coq Require Import List String Ascii Bool Arith ZArith.
From Verif Require Import Py PyStr Num Sort Activity Hist HistPlot PlotTools LabelTables Labels Spacecraft Icme.
Import ListNotations.
Open Scope list_scope.

Section Picture.
  Context {T : Type} {A : Arith T} {Tr : Transc T}.
  Local Open Scope num_scope.

  (** pandas' Index.union of two indexes: the values of both, sorted, once each. plotting/agg_plot.py 52-53 *)
  Fixpoint uniq (l : list T) : list T :=
    match l with
    | x :: ((y :: _) as r) => if aeqb x y then uniq r else x :: uniq r
    | _ => l
    end.
  (** agg_plot.py 51-53 [edges]: [v.left.union(v.right)] *)
  Definition axis_edges (b : list T) : list T := uniq (sort_by aleb (map fst (intervals b) ++ map snd (intervals b))).
  (** hist2d.py 302-303 [intervals[k].mid] *)
  Definition axis_mids (b : list T) : list T := map mid (intervals b).
  (** hist2d.py 103-109 [_maybe_convert_to_log_scale], one axis *)
  Definition delogged (lg : bool) (v : list T) : list T := map (fun x => if lg then exp10 x else x) v.

  (** [agg().unstack("x")]: one row per y bin with an entry, one column per x bin with an entry; a pair without an entry is NaN. plotting/hist2d.py 272-318, 364-372 *)
  Record frame2 := mkFrame { f_index : list nat; f_columns : list nat; f_values : list (list T) }.
  (** plotting/hist2d.py 272-318, 364-372 *)
  Definition with_entry (axis : k2 -> nat) (t : list (k2 * T)) (n : nat) : list nat :=
    filter (fun i => existsb (fun kv => Nat.eqb (axis (fst kv)) i) t) (seq 0 n).
  (** plotting/hist2d.py 272-318, 364-372 *)
  Definition unstack_x (bx by_ : list T) (t : list (k2 * T)) : frame2 :=
    let cols := with_entry fst t (List.length (intervals bx)) in
    let rows := with_entry snd t (List.length (intervals by_)) in
    mkFrame rows cols (map (fun j => map (fun i => agg2_value t i j) cols) rows).
  (** DataFrame.reindex: the entry under the same label, NaN under a new one. plotting/hist2d.py 308-310, 370-372, 887-889 *)
  Fixpoint under {X} (labels : list nat) (vals : list X) (d : X) (k : nat) : X :=
    match labels, vals with
    | l :: ls, v :: vs => if Nat.eqb l k then v else under ls vs d k
    | _, _ => d
    end.
  (** plotting/hist2d.py 308-310, 370-372, 887-889 *)
  Definition reindex_columns (cats : list nat) (fr : frame2) : frame2 :=
    mkFrame (f_index fr) cats (map (fun row => map (under (f_columns fr) row anan) cats) (f_values fr)).
  (** plotting/hist2d.py 308-310, 370-372, 887-889 *)
  Definition reindex_rows (cats : list nat) (fr : frame2) : frame2 :=
    mkFrame cats (f_columns fr) (map (under (f_index fr) (f_values fr) (map (fun _ => anan) (f_columns fr))) cats).

  (** hist2d.py 272-312 [_prep_agg_for_plot] (also 364-377 in make_plot and 881-891 in plot_contours): the values before masking, x, y.
      An axis is reindexed only if the number of observed bins does not fit the coordinates. *)
  Definition prep_agg (use_edges lx ly : bool) (bx by_ : list T) (t : list (k2 * T)) : list (list T) * list T * list T :=
    let fr := unstack_x bx by_ t in
    let x := if use_edges then axis_edges bx else axis_mids bx in
    let y := if use_edges then axis_edges by_ else axis_mids by_ in
    let off := if use_edges then 1%nat else 0%nat in
    let fr := if Nat.eqb (List.length x) (List.length (f_columns fr) + off) then fr else reindex_columns (bins bx) fr in
    let fr := if Nat.eqb (List.length y) (List.length (f_index fr) + off) then fr else reindex_rows (bins by_) fr in
    (f_values fr, delogged lx x, delogged ly y).
  (** np.ma.masked_invalid: NaN and infinities are masked. plotting/hist2d.py 316, 392, 417, 556, 909 *)
  Definition masked (v : T) : option T := if aisfin v then Some v else None.
  (** plotting/hist2d.py 316, 392, 556, 909 *)
  Definition masked2 (C : list (list T)) : list (list (option T)) := map (map masked) C.

  (** hist2d.py 364-394: the quadrilaterals of pcolormesh; C[j][i] fills the cell between x[i], x[i+1] and y[j], y[j+1] *)
  Record picture := mkPicture { p_x : list T; p_y : list T; p_C : list (list (option T)) }.
  (** ditto: hist2d.py 364-394 *)
  Definition make_plot (lx ly : bool) (norm : axnorm2) (clim alim : option T * option T) (bx by_ : list T) (f : fcn (T := T))
      (data : list (T * T * T)) : picture :=
    let '(C, x, y) := prep_agg true lx ly bx by_ (agg2 lx ly norm clim alim bx by_ f data) in
    mkPicture x y (masked2 C).

  (** scipy.ndimage.gaussian_filter: output k is the sum over its window (pixel, weight). plotting/hist2d.py 546-556, 896-909 *)
  Definition window_filter (K : list (list (nat * T))) (arr : list T) : list T :=
    map (fun w => sum_strict (map (fun iw => snd iw * nth (fst iw) arr anan) w)) K.
  (** plotting/hist2d.py 546-556, 896-909 *)
  Definition chunk (nx ny : nat) (l : list T) : list (list T) := map (fun j => firstn nx (skipn (j * nx) l)) (seq 0 ny).
  (** plotting/hist2d.py 546-556, 896-909 *)
  Inductive smoothing_kind := NoSmoothing | Plain (K : list (list (nat * T))) | NanAware (K : list (list T)).
  (** plotting/hist2d.py 546-556, 896-909 *)
  Definition smooth (s : smoothing_kind) (nx ny : nat) (C : list (list T)) : list (list T) :=
    match s with
    | NoSmoothing => C
    | Plain K => chunk nx ny (window_filter K (List.concat C))
    | NanAware K => chunk nx ny (nan_gaussian_filter K (List.concat C))
    end.
  (** hist2d.py 881-912, 535-558: contours are drawn over the middles of the bins; the assertions of 911-912 *)
  Definition contour_data (lx ly : bool) (norm : axnorm2) (clim alim : option T * option T) (bx by_ : list T) (f : fcn (T := T))
      (s : smoothing_kind) (data : list (T * T * T)) : result picture :=
    let '(C, x, y) := prep_agg false lx ly bx by_ (agg2 lx ly norm clim alim bx by_ f data) in
    let C := smooth s (List.length x) (List.length y) C in
    if Nat.eqb (List.length C) (List.length y) && forallb (fun row => Nat.eqb (List.length row) (List.length x)) C
    then Ok (mkPicture x y (masked2 C)) else Err AssertionError.

  (** hist2d.py 410-434: the opacity of every face. The aggregate that sets it is not reindexed (416); numpy assigns one value per face,
      or a single value to all, and refuses anything else. None: the faces keep their opacity (counts are plotted, 433-434). *)
  Definition face_opacity (lx ly : bool) (norm : axnorm2) (clim alim : option T * option T) (bx by_ : list T) (f : fcn (T := T))
      (data : list (T * T * T)) : result (option (list T)) :=
    if Nat.ltb 1 (List.length (distinct (filter notnan (map snd data)))) then
      let alpha := opacity (List.concat (f_values (unstack_x bx by_ (agg2 lx ly norm clim alim bx by_ f data)))) in
      let faces := (List.length (bins by_) * List.length (bins bx))%nat in
      if Nat.eqb (List.length alpha) faces then Ok (Some alpha)
      else match alpha with [a] => Ok (Some (repeat a faces)) | _ => Err ValueError end
    else Ok None.

  (** hist2d.py 1038-1102 [make_joint_h2_h1_plot] with its default project_counts=True: the histogram, and the projections of the
      (plotted) counts above and beside it *)
  Definition joint_plot (lx ly : bool) (norm : axnorm2) (clim alim : option T * option T) (bx by_ : list T)
      (data : list (T * T * T)) : result (picture * list (nat * T) * list (nat * T)) :=
    top <- projection true true true lx ly norm clim alim bx by_ data ;;
    side <- projection false true true lx ly norm clim alim bx by_ data ;;
    Ok (make_plot lx ly norm clim alim bx by_ FDefault data, top, side).

  (** instabilities/beta_ani.py 31-81 [BetaRPlot]: logarithmic axes unless told otherwise, at least five counts per cell (61) *)
  Definition beta_plot (logx logy : option bool) (norm : axnorm2) (bx by_ : list T) (xs ys : list T) : result picture :=
    let lx := match logx with Some b => b | None => true end in
    let ly := match logy with Some b => b | None => true end in
    data <- set_data2 lx ly xs ys None ;;
    Ok (make_plot lx ly norm (Some (aofZ 5), None) (None, None) bx by_ FDefault data).
End Picture.
Arguments frame2 : clear implicits.
Arguments picture : clear implicits.
Arguments smoothing_kind : clear implicits.

(* ------------------------------------------------------------------ normalisation and labels *)
Open Scope string_scope.
Open Scope list_scope.
(** A label of an axis is a Count object (a cell of the heap: labels are shared by reference) or anything else. plotting/base.py 79-98, plotting/hist2d.py 111-121 *)
Inductive zlabel := CountObj (id : nat) | Other (s : string).
(** a Count object: its normalisation and the TeX and path it was last built with (special.py 126-191) *)
Record count_obj := mkCount { c_norm : option string; c_built : label }.
(** ditto: special.py 126-191 *)
Definition heap := list count_obj.
(** assignment to an attribute of the object numbered [i]: special.py 155-160 *)
Definition upd {X} (l : list X) (i : nat) (x : X) : list X := firstn i l ++ match skipn i l with [] => [] | _ :: r => x :: r end.
(** special.py 155-160, 189-191: set_axnorm then build_label *)
Definition renorm (h : heap) (id : nat) (n : option string) : result heap :=
  lab <- count_label lower upper n None ;;
  Ok (upd h id (mkCount (option_map lower n) lab)).
(** a histogram: [h_norm] is None before the attribute exists (Hist2D.__init__ labels before it normalises, 89-93); [h_path] is
    the part of the save path that comes from the label (base.py 134-141, 280-305) *)
Record hist := mkHist { h_norm : option (option string); h_label : zlabel; h_path : list string }.
(** ditto: base.py 134-141, 280-305 *)
Definition path_part (h : heap) (l : zlabel) : list string :=
  match l with
  | CountObj id => match nth_error h id with Some c => l_path (c_built c) | None => [] end
  | Other s => [replace " " "-" s]
  end.
(** hist2d.py 111-121 and base.py 79-97, 309-311 [set_labels(z=...)]: a Count is brought up to date, then the path is rebuilt *)
Definition set_label2 (h : heap) (g : hist) (l : zlabel) : result (heap * hist) :=
  h <- match l, h_norm g with
       | CountObj id, Some n => renorm h id n
       | CountObj id, None => match nth_error h id with
                              | Some c => lab <- count_label lower upper (c_norm c) None ;; Ok (upd h id (mkCount (c_norm c) lab))
                              | None => Ok h end
       | Other _, _ => Ok h
       end ;;
  Ok (h, mkHist (h_norm g) l (path_part h l)).
(** hist2d.py 132-161 [set_axnorm]: the path is left as it is *)
Definition set_axnorm2 (h : heap) (g : hist) (n : option string) : result (heap * hist) :=
  let n := option_map lower n in
  if match n with None => true | Some a => mem_str a ["c"; "r"; "t"; "d"; "cd"; "rd"] end then
    h <- match h_label g with CountObj id => renorm h id n | Other _ => Ok h end ;;
    Ok (h, mkHist (Some n) (h_label g) (h_path g))
  else Err AssertionError.
(** hist1d.py 116-134 [set_axnorm]: only the first letter counts *)
Definition first_letter (s : string) : result string := match s with EmptyString => Err IndexError | String c _ => Ok (String c EmptyString) end.
(** ditto: hist1d.py 116-134 *)
Definition set_axnorm1 (h : heap) (g : hist) (n : option string) : result (heap * hist) :=
  n <- match n with None => Ok None | Some a => rmap Some (first_letter (lower a)) end ;;
  if match n with None => true | Some a => String.eqb a "d" end then
    h <- match h_label g with CountObj id => renorm h id n | Other _ => Ok h end ;;
    Ok (h, mkHist (Some n) (h_label g) (h_path g))
  else Err AssertionError.
(** base.py 79-97 [set_labels(y=...)] of a Hist1D: the label is taken as it is *)
Definition set_label1 (h : heap) (g : hist) (l : zlabel) : result (heap * hist) :=
  Ok (h, mkHist (h_norm g) l (path_part h l)).

(** A session: histograms and Count labels made and changed in any order. Count(norm) makes a label (special.py 129-133); Hist2D(x, y, axnorm)
    makes a histogram with a Count of its own (74-93), Hist2D(x, y, z, axnorm) one with the label "z". *)
Record session := mkSession { s_heap : heap; s_hists : list hist }.
(** a use of the objects: special.py 129-160, base.py 79-98, hist1d.py 116-134, hist2d.py 132-161 *)
Inductive event :=
| NewCount (n : option string)
| NewHist2 (weighted : bool) (n : option string)
| Axnorm2 (g : nat) (n : option string)
| Label2 (g : nat) (l : zlabel).
(** as [event] above: hist1d.py 116-134, hist2d.py 132-161 *)
Definition on_hist (s : session) (g : nat) (f : heap -> hist -> result (heap * hist)) : result session :=
  match nth_error (s_hists s) g with
  | None => Err IndexError
  | Some x => r <- f (s_heap s) x ;; Ok (mkSession (fst r) (upd (s_hists s) g (snd r)))
  end.
(** as [event] above: hist1d.py 116-134, hist2d.py 132-161 *)
Definition step (s : session) (e : event) : result session :=
  match e with
  | NewCount n => lab <- count_label lower upper n None ;; Ok (mkSession (s_heap s ++ [mkCount (option_map lower n) lab]) (s_hists s))
  | NewHist2 weighted n =>
      s1 <- (if weighted then Ok (s_heap s, Other "z")
             else lab <- count_label lower upper n None ;; Ok (s_heap s ++ [mkCount (option_map lower n) lab], CountObj (List.length (s_heap s)))) ;;
      r <- set_label2 (fst s1) (mkHist None (Other "z") []) (snd s1) ;;
      r <- set_axnorm2 (fst r) (snd r) n ;;
      Ok (mkSession (fst r) (s_hists s ++ [snd r]))
  | Axnorm2 g n => on_hist s g (fun h x => set_axnorm2 h x n)
  | Label2 g l => on_hist s g (fun h x => set_label2 h x l)
  end.
(** as [event] above: hist1d.py 116-134, hist2d.py 132-161 *)
Definition run (es : list event) (s : session) : result session := fold_left (fun r e => s <- r ;; step s e) es (Ok s).
(** hist1d.py 40-77 [Hist1D.__init__]: normalisation first, then the label *)
Definition new_hist1 (weighted : bool) (n : option string) : result (heap * hist) :=
  r <- set_axnorm1 [] (mkHist None (Other "y") []) n ;;
  if weighted then set_label1 (fst r) (snd r) (Other "y")
  else lab <- count_label lower upper n None ;; set_label1 [mkCount (option_map lower n) lab] (snd r) (CountObj 0).
(** instabilities/beta_ani.py 53-61: the labels of a BetaRPlot *)
Definition beta_labels (species : string) : (string * string * string) * (string * string * string) :=
  let s := replace "_bimax" "" species in
  (("beta", "par", s), ("R", if Labels.contains "+" species then "P" else "T", s)).
