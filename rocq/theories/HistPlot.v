(** plotting/agg_plot.py, hist1d.py, hist2d.py: clipping, colour limits, contours, border lines, projections, opacity and
    what Hist1D.make_plot draws. matplotlib, scipy's smoothing and logging are not modelled. Computations on T. *)
From Coq Require Import List String Ascii Bool Arith ZArith.
From Verif Require Import Py Num Sort Activity Hist Spiral Icme.
Import ListNotations.
Open Scope list_scope.

Section HistPlot.
  Context {T : Type} {A : Arith T} {TR : Transc T}.
  Local Open Scope num_scope.

  (* -------------------------------------------------------------- clipping *)
  (** Series.quantile(i/n): of the entries that are not NaN, NaN if there are none; the rank is computed exactly here. plotting/agg_plot.py 149, plotting/spiral.py 590, plotting/hist2d.py 263 *)
  Definition series_quantile (l : list T) (i n : nat) : T :=
    match filter notnan l with [] => anan | d => quantile_at (sort_by aleb d) i n end.
  (** Series.clip(lo, up): NaN stays, and a NaN bound does nothing. plotting/agg_plot.py 165, 265 *)
  Definition clip_value (lo up v : T) : T := if altb v lo then lo else if altb up v then up else v.
  (** the clip_data argument; Hist2D keeps only its truth value (base.py 278), Hist1D keeps it (hist1d.py 114) *)
  Inductive clip_arg := ClipFlag (b : bool) | ClipString (s : string).
  (** agg_plot.py 145-168, base.py 278 *)
  Definition truthy (c : clip_arg) : bool := match c with ClipFlag b => b | ClipString s => negb (String.eqb s "") end.
  (** agg_plot.py 145-168 *)
  Definition first_lower (s : string) : option ascii := match lower s with String c _ => Some c | EmptyString => None end.
  (** the denominator of the quantiles of agg_plot.py 146-149, 264 *)
  Definition ten_thousand : nat := Nat.pow 10 4.
  (** agg_plot.py 145-166 [clip_data] of a Series: clip_lower and clip_upper are gone from pandas *)
  Definition clip_data (data : list T) (c : clip_arg) : result (list T) :=
    let lo := series_quantile data 1 ten_thousand in let up := series_quantile data (ten_thousand - 1) ten_thousand in
    let both := Ok (map (clip_value lo up) data) in
    match c with
    | ClipFlag _ => both
    | ClipString s => match first_lower s with
                      | None => Err IndexError
                      | Some a => if Ascii.eqb a "l" || Ascii.eqb a "u" then Err AttributeError else both
                      end
    end.
  (** agg_plot.py 288-306 [make_cut], one axis: the values that are cut *)
  Definition cut_values1 (data : list T) (c : clip_arg) : result (list T) := if truthy c then clip_data data c else Ok data.
  (** ditto: agg_plot.py 288-306 *)
  Definition cut_values2 (data : list T) (c : clip_arg) : result (list T) := cut_values1 data (ClipFlag (truthy c)).

  (* -------------------------------------------------------------- colour limits *)
  (** a colour norm: its limits, None until they are set. plotting/hist2d.py 258-270, 379-391 *)
  Record cnorm := mkNorm { vmin : option T; vmax : option T; clips : bool }.
  (** hist2d.py 379-387 (make_plot) and 513-520: the norm used when the caller gives none *)
  Definition default_norm (norm : axnorm2) : option cnorm :=
    match norm with
    | N2Col | N2Row => Some (mkNorm (Some a0) (Some a1) true)
    | N2Density | N2ColDensity | N2RowDensity => Some (mkNorm None None true)
    | N2None | N2Total => None
    end.
  (** hist2d.py 258-270 [_limit_color_norm] on the z column; attributes of None fail *)
  Definition limit_color_norm (norm : axnorm2) (zs : list T) (n : option cnorm) : result (option cnorm) :=
    match norm with
    | N2Col | N2Row => Ok n
    | _ => match n with
           | None => Err AttributeError
           | Some c => Ok (Some (mkNorm (Some (match vmin c with Some v => v | None => series_quantile zs 1 100 end))
                                        (Some (match vmax c with Some v => v | None => series_quantile zs 99 100 end)) true))
           end
    end.
  (** hist2d.py 387-391: the norm of the plot *)
  Definition plot_norm (norm : axnorm2) (limit : bool) (given : option cnorm) (data : list (T * T * T)) : result (option cnorm) :=
    let n := match given with Some g => Some g | None => default_norm norm end in
    if limit then limit_color_norm norm (map snd data) n else Ok n.

  (* -------------------------------------------------------------- data above a contour *)
  (** the columns of [agg().unstack("x")]: the x bins that have an entry. plotting/hist2d.py 364-372 *)
  Definition columns_of (t : list (k2 * T)) (nx : nat) : list nat :=
    filter (fun i => existsb (fun kv => Nat.eqb (fst (fst kv)) i) t) (seq 0 nx).
  (** hist2d.py 1124-1128: from the lowest to the highest bin of the column at or above the level; of no bins, the minimum is
      NaN, which has no [left] *)
  Definition contour_box (level : T) (bx by_ : list T) (t : list (k2 * T)) (i : nat) : result (nat * ((T * T) * (T * T))) :=
    match filter (fun j => aleb level (agg2_value t i j)) (bins by_) with
    | [] => Err AttributeError
    | j0 :: rest => Ok (i, (nth i (intervals bx) (anan, anan),
                            (fst (nth j0 (intervals by_) (anan, anan)), snd (nth (last rest j0) (intervals by_) (anan, anan)))))
    end.
  (** hist2d.py 1104-1135 [id_data_above_contour]: the column of each datum, later columns overwrite *)
  Definition above_contour (level : T) (bx by_ : list T) (t : list (k2 * T)) (data : list (T * T * T)) : result (list (option nat)) :=
    boxes <- mapM (contour_box level bx by_ t) (columns_of t (List.length (intervals bx))) ;;
    Ok (map (fun r => option_map fst (find (fun ib => in_box (snd ib) (fst (fst r)) (snd (fst r))) (rev boxes))) data).

  (* -------------------------------------------------------------- border lines *)
  (** the Savitzky-Golay arguments a dict may hold. plotting/hist2d.py 663-743 *)
  Record sg_kwargs := mkSg { window_length : option Z; polyorder : option Z }.
  (** scipy.signal.savgol_filter refuses an order at or above the window, and a window longer than the data. plotting/hist2d.py 663-743 *)
  Definition savgol_ok (w p : Z) (n : nat) : bool := Z.ltb p w && Z.leb w (Z.of_nat n).
  (** hist2d.py 680-687: 10% of the points by default; an even window is made smaller by one. The entries used are popped. *)
  Definition window_used (k : sg_kwargs) (n : nat) : Z :=
    let w := match window_length k with Some w => w | None => Z.of_nat (Nat.div n 10) end in
    if Z.even w then (w - 1)%Z else w.
  (** ditto: hist2d.py 680-687 *)
  Definition order_used (k : sg_kwargs) : Z := match polyorder k with Some p => p | None => 3%Z end.
  (** Interval.mid, hist2d.py 663-676, hist1d.py 270-285 *)
  Definition mid (i : T * T) : T := aofQ 1 2 * (fst i + snd i).                       (* Interval.mid *)
  Section Edges.
    Variable savgol : Z -> Z -> list T -> list T.                                    (* the smoothed values *)
    (** hist2d.py 663-710 [_plot_one_edge]: the points drawn and the dict afterwards *)
    Definition one_edge (logx logy smooth : bool) (xlim ylim : option T * option T) (k : sg_kwargs) (pts : list (T * T))
        : result (list (T * T)) * sg_kwargs :=
      let x := map fst pts in let y := map snd pts in
      let fin (y : list T) := filter (fun p => within xlim (fst p) && within ylim (snd p))
                                (combine (map (fun v => if logx then exp10 v else v) x) (map (fun v => if logy then exp10 v else v) y)) in
      if smooth then
        let w := window_used k (List.length pts) in let p := order_used k in
        (if savgol_ok w p (List.length pts) then Ok (fin (savgol w p y)) else Err ValueError, mkSg None None)
      else (Ok (fin y), k).
    (** hist2d.py 712-743 [plot_edges]: the same dict is handed to both; limits come in kwargs *)
    Definition plot_edges (logx logy smooth : bool) (xlim ylim : option T * option T) (k : sg_kwargs) (top bottom : list (T * T))
        : result (list (T * T) * list (T * T)) :=
      let '(rt, k) := one_edge logx logy smooth xlim ylim k top in
      t <- rt ;; b <- fst (one_edge logx logy smooth xlim ylim k bottom) ;; Ok (t, b).
  End Edges.
  (** 675-676: the middles of the bins on a border (get_border, Hist.v). plotting/hist2d.py 663-743 *)
  Definition border_points (bx by_ : list T) (border : list (k2 * T)) : list (T * T) :=
    map (fun kv => (mid (nth (fst (fst kv)) (intervals bx) (anan, anan)), mid (nth (snd (fst kv)) (intervals by_) (anan, anan)))) border.

  (* -------------------------------------------------------------- projections *)
  (** hist2d.py 967-1036 [project_1d]: the series given to Hist1D, the edges and the log flags of the result. [on_x]: axis="x". *)
  Definition project_1d (on_x only_plotted counts logx logy : bool) (norm : axnorm2) (clim alim : option T * option T) (bx by_ : list T)
      (data : list (T * T * T)) : list T * option (list T) * list T * (bool * bool) :=
    let tk := if only_plotted then plotted_series2 logx logy norm clim alim bx by_ data else map (fun _ => true) data in
    let kept := map fst (filter snd (combine data tk)) in
    let lg := if on_x then logx else logy in
    let main r := let v := if on_x then fst (fst r) else snd (fst r) in if lg then exp10 v else v in
    let z := map snd data in                                                                             (* 993-996: unique() has one NaN *)
    let weighted := Nat.leb 2 (List.length (distinct (filter notnan z)) + if existsb aisnan z then 1 else 0) in
    let masked v := if aleb (nth 0 by_ anan) v && aleb v (last by_ anan) then (if logy then exp10 v else v) else anan in (* 1010-1016: for y only *)
    let other r := if weighted then snd r else if on_x then masked (snd (fst r)) else fst (fst r) in
    let logother := negb counts && negb weighted && on_x && logy in
    (map main kept, if counts then None else Some (map other kept), if on_x then bx else by_, (lg, logother)).
  (** what the projection shows: Hist1D on the same edges. plotting/hist2d.py 967-1036 *)
  Definition projection (on_x only_plotted counts logx logy : bool) (norm : axnorm2) (clim alim : option T * option T) (bx by_ : list T)
      (data : list (T * T * T)) : result (list (nat * T)) :=
    let '(xs, ys, b, (lg, _)) := project_1d on_x only_plotted counts logx logy norm clim alim bx by_ data in
    agg1 lg N1None (None, None) b FDefault (set_data1 lg xs ys).

  (* -------------------------------------------------------------- contour levels *)
  (** the axnorm of a Hist2D (132-161) or the undocumented pair of 218-228. plotting/hist2d.py 132-161, 218-228 *)
  Inductive any_norm := Norm (n : axnorm2) | NormWith.
  (** hist2d.py 745-766 [_get_contour_levels] *)
  Definition contour_levels (n : any_norm) (levels : option (list T)) : result (option (list T)) :=
    match levels, n with
    | Some l, _ => Ok (Some l)
    | None, Norm N2None => Ok None
    | None, Norm N2Total => Ok (Some [aofQ 1 100; aofQ 1 10; aofQ 3 10; aofQ 7 10; aofQ 99 100])
    | None, Norm N2Density => Ok (Some [aofQ 3 100000; aofQ 1 10000; aofQ 3 10000; aofQ 1 1000; aofQ 17 10000; aofQ 23 10000])
    | None, Norm N2Col | None, Norm N2Row => Ok (Some (map (fun i => aofQ (Z.of_nat i) 10) (seq 0 11)))
    | None, Norm N2ColDensity | None, Norm N2RowDensity => Ok None
    | None, NormWith => Err ValueError
    end.
  (** hist2d.py 938-942: the labelled levels; without levels matplotlib labels its own *)
  Definition labelled_levels (skip_max : bool) (levels : option (list T)) : option (list T) :=
    option_map (fun l => if skip_max then removelast l else l) levels.

  (* -------------------------------------------------------------- opacity *)
  (** hist2d.py 410-431: scaled to [0, 1], inverted, fourth root; 0 where there is no (finite) value *)
  Definition opacity (agg : list T) : list T :=
    let f := filter aisfin agg in
    let lo := series_min f in let hi := series_max f in
    map (fun v => if aisfin v then (if aeqb lo hi then a1 else tpow (a1 - (v - lo) / (hi - lo)) (aofQ 1 4)) else a0) agg.

  (* -------------------------------------------------------------- Hist1D.make_plot. plotting/hist1d.py 217-348 *)
  Inductive drawn1 := Bars (x y : list T) (xerr yerr : option (list T)) | Band (x y low high : list T).
  (** hist1d.py 257-346: values [v] with spreads [s] (a pair of functions) at the middles of the bins. The errors are swapped
      with the axes (297), but the band is always [y - dy, y + dy]; None - in it is a TypeError. *)
  Definition hist1d_plot (lg transpose window : bool) (b v : list T) (s : option (list T)) : result drawn1 :=
    let x := map (fun i => let m := mid i in if lg then exp10 m else m) (intervals b) in
    let '(px, py, dx, dy) := if transpose then (v, x, s, None) else (x, v, None, s) in
    if window then
      match dy with
      | None => Err TypeError
      | Some d => Ok (Band px py (map (fun p => fst p - snd p) (combine py d)) (map (fun p => fst p + snd p) (combine py d)))
      end
    else Ok (Bars px py dx dy).
End HistPlot.
