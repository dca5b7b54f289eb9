(** Histograms and binned aggregates: plotting/agg_plot.py, hist1d.py, hist2d.py (the computations
    behind the plots; drawing itself is not modelled). *)
From Coq Require Import List Bool Arith ZArith String.
From Verif Require Import Py Num Sort Activity.
Import ListNotations.
Open Scope py_scope.

Section Hist.
  Context {T : Type} {A : Arith T} {TR : Transc T}.
  Local Open Scope num_scope.

  (** numbers and powers of ten of plotting/agg_plot.py 205-285, plotting/hist1d.py 107, plotting/hist2d.py 103-129 *)
  Definition ofnat (n : nat) : T := aofZ (Z.of_nat n).
  (** numbers and powers of ten of plotting/agg_plot.py 205-285, plotting/hist1d.py 107, plotting/hist2d.py 103-129 *)
  Definition exp10 (x : T) : T := tpow (aofZ 10) x.                 (* 10.0 ** x *)
  (** numbers and powers of ten of plotting/agg_plot.py 205-285, plotting/hist1d.py 107, plotting/hist2d.py 103-129 *)
  Definition log10 (x : T) : T := tln x / tln (aofZ 10).            (* np.log10 *)

  (* --------------------------------------------------------------- bins *)
  (** agg_plot.py 246: [replace([-inf, inf], nan).dropna()] *)
  Definition finite (l : list T) : list T := filter aisfin l.
  (** numpy.histogram_bin_edges for an integer number of bins: n+1 equally spaced points from the
      smallest to the largest value ((0,1) without data, +-0.5 when they coincide). plotting/agg_plot.py 244-268 *)
  Definition outer_edges (d : list T) : T * T :=
    match d with
    | [] => (a0, a1)
    | _ => let lo := series_min d in let hi := series_max d in
           if aeqb lo hi then (lo - aofQ 1 2, hi + aofQ 1 2) else (lo, hi)
    end.
  (** ditto: agg_plot.py 246 *)
  Definition linspace (lo hi : T) (n : nat) : list T :=
    map (fun i => if Nat.eqb i n then hi else lo + ofnat i * ((hi - lo) / ofnat n)) (seq 0 (S n)).
  (** agg_plot.py 242-278 for an integer or explicit edges; [rnd] is [b.round(precision)] (275).
      Not modelled: the 'knuth' and other string rules, and the MemoryError fallback. *)
  Inductive nbins := NInt (n : nat) | NEdges (e : list T).
  (** ditto: agg_plot.py 242-278 *)
  Definition bin_edges (rnd : T -> T) (b : nbins) (data : list T) : result (list T) :=
    let d := finite data in
    e <- match b with
         | NInt 0 => Err ValueError
         | NInt n => let '(lo, hi) := outer_edges d in Ok (linspace lo hi n)
         | NEdges e => Ok e
         end ;;
    Ok (map rnd e).
  (** agg_plot.py 277-278: [zip(b[:-1], b[1:])], closed on the right *)
  Definition intervals (b : list T) : list (T * T) := combine (removelast b) (tl b).
  (** agg_plot.py 302 *)
  Definition in_bin (v : T) (i : T * T) : bool := altb (fst i) v && aleb v (snd i).
  (** pandas [cut(d, IntervalIndex)] (302): the interval that holds the value, else NaN. plotting/agg_plot.py 302 *)
  Fixpoint find_bin (k : nat) (ivs : list (T * T)) (v : T) : option nat :=
    match ivs with
    | [] => None
    | i :: r => if in_bin v i then Some k else find_bin (S k) r v
    end.
  (** agg_plot.py 302 *)
  Definition cut (b : list T) (v : T) : option nat := find_bin 0 (intervals b) v.

  (* --------------------------------------------------------- aggregation. pandas groupby aggregates, plotting/agg_plot.py 308-347 *)
  Definition notnan (x : T) : bool := negb (aisnan x).
  (** pandas groupby aggregates, plotting/agg_plot.py 308-347 *)
  Definition count (l : list T) : T := ofnat (List.length (filter notnan l)).
  (** pandas groupby aggregates, plotting/agg_plot.py 308-347 *)
  Definition mean (l : list T) : T := sum_skip l / count l.
  (** distinct values, by ==. pandas groupby aggregates, plotting/agg_plot.py 308-347 *)
  Fixpoint distinct (l : list T) : list T :=
    match l with
    | [] => []
    | x :: r => if existsb (aeqb x) r then distinct r else x :: distinct r
    end.
  (** what [gb.agg] is asked for. plotting/agg_plot.py 308-381 *)
  Inductive fcn := FDefault | FCount | FOther (f : list T -> T).
  (** agg_plot.py 316-321: counts if the aggregated column has one distinct value, else means *)
  Definition the_fcn (f : fcn) (targets : list T) : list T -> T :=
    match f with
    | FCount => count
    | FOther g => g
    | FDefault => if Nat.eqb (List.length (distinct (filter notnan targets))) 1 then count else mean
    end.

  Section Keys.
    Variable K : Type.
    Variable keqb : K -> K -> bool.
    (** agg_plot.py 85-133, 323: [groupby(observed=True)]: one entry per bin that holds data, in bin order *)
    Definition members (rows : list (option K * T)) (k : K) : list T :=
      map snd (filter (fun r => match fst r with Some q => keqb q k | None => false end) rows).
    (** ditto: agg_plot.py 85-133, 323 *)
    Definition is_observed (rows : list (option K * T)) (k : K) : bool :=
      existsb (fun r => match fst r with Some q => keqb q k | None => false end) rows.
    (** ditto: agg_plot.py 85-133, 323 *)
    Definition group_agg (keys : list K) (f : list T -> T) (rows : list (option K * T)) : list (K * T) :=
      map (fun k => (k, f (members rows k))) (filter (is_observed rows) keys).
    (** agg_plot.py 325-340 *)
    Definition within (lim : option T * option T) (x : T) : bool :=
      (match fst lim with Some a => aleb a x | None => true end)
      && (match snd lim with Some b => aleb x b | None => true end).
    (** agg_plot.py 308-347 [_agg_runner]: bins whose count is outside the limits become NaN *)
    Definition agg_runner (keys : list K) (clim : option T * option T) (f : fcn)
               (rows : list (option K * T)) : list (K * T) :=
      map (fun kv => (fst kv, if within clim (count (members rows (fst kv))) then snd kv else anan))
          (group_agg keys (the_fcn f (map snd rows)) rows).
    (** ditto: agg_plot.py 308-347 *)
    Definition values (t : list (K * T)) : list T := map snd t.
    (** the value shown in a bin: NaN where the aggregate has no entry (349-357, and unstack). plotting/agg_plot.py 349-357 *)
    Fixpoint at_key (t : list (K * T)) (k : K) : T :=
      match t with
      | [] => anan
      | (q, v) :: r => if keqb q k then v else at_key r k
      end.
    (** ditto: agg_plot.py 308-347 *)
    Definition divide_by (g : K -> T) (t : list (K * T)) : list (K * T) :=
      map (fun kv => (fst kv, snd kv / g (fst kv))) t.
    (** agg_plot.py 389, 420: the bins that carry a number / reach the threshold *)
    Definition plotted (t : list (K * T)) : list K := map fst (filter (fun kv => notnan (snd kv)) t).
    (** ditto: agg_plot.py 389, 420 *)
    Definition reaching (thr : T) (t : list (K * T)) : list K := map fst (filter (fun kv => aleb thr (snd kv)) t).
  End Keys.

  (** plotting/hist1d.py 167-191, plotting/hist2d.py 163-232 *)
  Definition width (b : list T) (i : nat) : T :=
    let iv := nth i (intervals b) (anan, anan) in snd iv - fst iv.          (* Interval.length *)

  (* -------------------------------------------------------------- Hist1D *)
  (** hist1d.py 106-114 [set_data]; without y every row carries 1 *)
  Definition set_data1 (logx : bool) (xs : list T) (ys : option (list T)) : list (T * T) :=
    combine (map (fun x => if logx then log10 (aabs x) else x) xs)
            (match ys with Some y => y | None => map (fun _ => a1) xs end).
  (** hist1d.py 116-134 *)
  Inductive axnorm1 := N1None | N1Density.            (* hist1d.py 116-134: only 'd' is accepted *)
  (** agg_plot.py 85-133 *)
  Definition rows1 (b : list T) (data : list (T * T)) : list (option nat * T) :=
    map (fun r => (cut b (fst r), snd r)) data.
  (** agg_plot.py 85-133 *)
  Definition bins (b : list T) : list nat := seq 0 (List.length (intervals b)).
  (** hist1d.py 167-191 *)
  Definition axis_normalizer1 (logx : bool) (norm : axnorm1) (b : list T) (t : list (nat * T)) : list (nat * T) :=
    match norm with
    | N1None => t
    | N1Density =>
        let n := sum_skip (values nat t) in
        divide_by nat (fun i => (let dx := width b i in if logx then exp10 dx else dx) * n) t
    end.
  (** hist1d.py 193-203 [agg]: one value per bin *)
  Definition agg1 (logx : bool) (norm : axnorm1) (clim : option T * option T) (b : list T) (f : fcn)
             (data : list (T * T)) : result (list (nat * T)) :=
    match norm, f with
    | N1Density, FOther _ => Err ValueError
    | _, _ => Ok (axis_normalizer1 logx norm b (agg_runner nat Nat.eqb (bins b) clim f (rows1 b data)))
    end.
  (** ditto: hist1d.py 193-203 *)
  Definition agg1_value (t : list (nat * T)) (i : nat) : T := at_key nat Nat.eqb t i.

  (** agg_plot.py 383-412 [get_plotted_data_boolean_series], one axis *)
  Definition axis_taken (keys : list nat) (c : option nat) : bool :=
    match c with Some i => existsb (Nat.eqb i) keys | None => false end.
  (** ditto: agg_plot.py 383-412 *)
  Definition plotted_series1 (logx : bool) (norm : axnorm1) (clim : option T * option T) (b : list T)
             (data : list (T * T)) : result (list bool) :=
    t <- agg1 logx norm clim b FDefault data ;;
    Ok (map (fun r => axis_taken (plotted nat t) (cut b (fst r))) data).
  (** agg_plot.py 414-433 [get_subset_above_threshold], the boolean series *)
  Definition above_threshold1 (logx : bool) (norm : axnorm1) (clim : option T * option T) (b : list T) (f : fcn)
             (thr : T) (data : list (T * T)) : result (list bool) :=
    t <- agg1 logx norm clim b f data ;;
    Ok (map (fun r => axis_taken (reaching nat thr t) (cut b (fst r))) data).

  (** hist1d.py 136-165 [construct_cdf]: (x, position) *)
  Definition construct_cdf (logx : bool) (clim : option T * option T) (norm : axnorm1) (b : list T)
             (only_plotted : bool) (data : list (T * T)) : result (list (T * T)) :=
    if negb (Nat.leb (List.length (distinct (filter notnan (map snd data))
                       ++ (if existsb aisnan (map snd data) then [anan] else []))) 2)
    then Err ValueError                                                     (* 149-150 *)
    else
      tk <- (if only_plotted then plotted_series1 logx norm clim b data else Ok (map (fun _ => true) data)) ;;
      let x := map fst (map fst (filter (fun p => (match cut b (fst (fst p)) with Some _ => true | None => false end)
                                                   && snd p) (combine data tk))) in
      let s := sort_by aleb x in
      let n := List.length s in
      Ok (combine (map (fun v => if logx then exp10 v else v) s)
                  (map (fun i => ofnat i / ofnat (n - 1)) (seq 0 n))).

  (* -------------------------------------------------------------- Hist2D *)
  (** base.py 264-278, hist2d.py 123-130 [set_data]: rows with a missing entry are dropped, then logs *)
  Definition set_data2 (logx logy : bool) (xs ys : list T) (zs : option (list T)) : result (list (T * T * T)) :=
    let z := match zs with Some z => z | None => map (fun _ => a1) xs end in
    let d := filter (fun r => let '(x, y, z) := r in notnan x && notnan y && notnan z)
                    (combine (combine xs ys) z) in
    match d with
    | [] => Err ValueError
    | _ => Ok (map (fun r => let '(x, y, z) := r in
                     (if logx then log10 (aabs x) else x, if logy then log10 (aabs y) else y, z)) d)
    end.
  (** the keys (x, y) of hist2d.py 100-101, agg_plot.py 85-133 *)
  Definition k2 : Type := nat * nat.
  (** the keys (x, y) of hist2d.py 100-101, agg_plot.py 85-133 *)
  Definition k2_eqb (p q : k2) : bool := Nat.eqb (fst p) (fst q) && Nat.eqb (snd p) (snd q).
  (** agg_plot.py 85-108, 289-306 *)
  Definition cut2 (bx by_ : list T) (r : T * T * T) : option k2 :=
    match cut bx (fst (fst r)), cut by_ (snd (fst r)) with
    | Some i, Some j => Some (i, j)
    | _, _ => None
    end.
  (** agg_plot.py 85-133 *)
  Definition bins2 (bx by_ : list T) : list k2 := list_prod (bins bx) (bins by_).
  (** agg_plot.py 85-133 *)
  Definition rows2 (bx by_ : list T) (data : list (T * T * T)) : list (option k2 * T) :=
    map (fun r => (cut2 bx by_ r, snd r)) data.
  (** hist2d.py 132-161 *)
  Inductive axnorm2 := N2None | N2Col | N2Row | N2Total | N2Density | N2ColDensity | N2RowDensity.
  (** the entries in column i / row j. plotting/hist2d.py 163-232 *)
  Definition col_of (i : nat) (t : list (k2 * T)) : list T := map snd (filter (fun kv => Nat.eqb (fst (fst kv)) i) t).
  (** hist2d.py 163-232 *)
  Definition row_of (j : nat) (t : list (k2 * T)) : list T := map snd (filter (fun kv => Nat.eqb (snd (fst kv)) j) t).
  (** hist2d.py 163-232 *)
  Definition axis_normalizer2 (logx logy : bool) (norm : axnorm2) (bx by_ : list T) (t : list (k2 * T)) : list (k2 * T) :=
    match norm with
    | N2None => t
    | N2Col => divide_by k2 (fun k => series_max (col_of (fst k) t)) t
    | N2Row => divide_by k2 (fun k => series_max (row_of (snd k) t)) t
    | N2Total => divide_by k2 (fun _ => series_max (values k2 t)) t
    | N2Density =>
        let n := sum_skip (values k2 t) in
        let dx i := let d := width bx i in if logx then exp10 d else d in
        let dy j := let d := width by_ j in if logy then exp10 d else d in
        divide_by k2 (fun _ => n) (divide_by k2 (fun k => dy (snd k)) (divide_by k2 (fun k => dx (fst k)) t))
    | N2ColDensity =>
        divide_by k2 (fun k => width by_ (snd k)) (divide_by k2 (fun k => sum_skip (col_of (fst k) t)) t)
    | N2RowDensity =>
        divide_by k2 (fun k => width bx (fst k)) (divide_by k2 (fun k => sum_skip (row_of (snd k) t)) t)
    end.
  (** hist2d.py 234-249 [agg]: [alim] masks the normalised values *)
  Definition agg2 (logx logy : bool) (norm : axnorm2) (clim alim : option T * option T) (bx by_ : list T) (f : fcn)
             (data : list (T * T * T)) : list (k2 * T) :=
    map (fun kv => (fst kv, if within alim (snd kv) then snd kv else anan))
        (axis_normalizer2 logx logy norm bx by_ (agg_runner k2 k2_eqb (bins2 bx by_) clim f (rows2 bx by_ data))).
  (** ditto: hist2d.py 234-249 *)
  Definition agg2_value (t : list (k2 * T)) (i j : nat) : T := at_key k2 k2_eqb t (i, j).

  (** agg_plot.py 383-412 on two axes: each axis is tested separately, and the tests are and-ed *)
  Definition taken2 (keys : list k2) (bx by_ : list T) (r : T * T * T) : bool :=
    axis_taken (map fst keys) (cut bx (fst (fst r))) && axis_taken (map snd keys) (cut by_ (snd (fst r))).
  (** ditto: agg_plot.py 383-412 *)
  Definition plotted_series2 (logx logy : bool) (norm : axnorm2) (clim alim : option T * option T) (bx by_ : list T)
             (data : list (T * T * T)) : list bool :=
    map (taken2 (plotted k2 (agg2 logx logy norm clim alim bx by_ FDefault data)) bx by_) data.
  (** ditto: agg_plot.py 383-412 *)
  Definition above_threshold2 (logx logy : bool) (norm : axnorm2) (clim alim : option T * option T) (bx by_ : list T)
             (f : fcn) (thr : T) (data : list (T * T * T)) : list bool :=
    map (taken2 (reaching k2 thr (agg2 logx logy norm clim alim bx by_ f data)) bx by_) data.

  (** hist2d.py 632-661 [get_border]: in each column, the last and the first bin with a value *)
  Definition column_bins (t : list (k2 * T)) (ny i : nat) : list nat :=
    filter (fun j => notnan (agg2_value t i j)) (seq 0 ny).
  (** ditto: hist2d.py 632-661 *)
  Definition border_top (t : list (k2 * T)) (nx ny : nat) : list (k2 * T) :=
    flat_map (fun i => match rev (column_bins t ny i) with
                       | [] => [] | j :: _ => [((i, j), agg2_value t i j)] end) (seq 0 nx).
  (** ditto: hist2d.py 632-661 *)
  Definition border_bottom (t : list (k2 * T)) (nx ny : nat) : list (k2 * T) :=
    flat_map (fun i => match column_bins t ny i with
                       | [] => [] | j :: _ => [((i, j), agg2_value t i j)] end) (seq 0 nx).

  (** hist2d.py 967-1036 [project_1d] with project_counts=True on the x axis: the 1D count histogram on
      the same edges of the x values (of the plotted data if only_plotted). For a log axis the values are
      exponentiated here and logged again by Hist1D. *)
  Definition project_counts_x (logx logy : bool) (norm : axnorm2) (clim alim : option T * option T) (bx by_ : list T)
             (only_plotted : bool) (data : list (T * T * T)) : result (list (nat * T)) :=
    let tk := if only_plotted then plotted_series2 logx logy norm clim alim bx by_ data
              else map (fun _ => true) data in
    let xs := map (fun p => let x := fst (fst (fst p)) in if logx then exp10 x else x)
                  (filter snd (combine data tk)) in
    agg1 logx N1None (None, None) bx FDefault (set_data1 logx xs None).

  (** hist1d.py 350-404, hist2d.py 1137-1200 [take_data_in_yrange_across_x], after the bounds have been
      looked up: a box (l, r] x (b, t] per x bin; [data] carries index labels *)
  Definition in_box (box : (T * T) * (T * T)) (x y : T) : bool := in_bin x (fst box) && in_bin y (snd box).
  (** ditto: hist1d.py 350-404 *)
  Definition take_boxes (boxes : list ((T * T) * (T * T))) (data : list (Z * (T * T))) : result (list Z) :=
    if existsb (fun bx => negb (altb (fst (fst bx)) (snd (fst bx)) && altb (fst (snd bx)) (snd (snd bx)))) boxes
    then Err AssertionError
    else match boxes with
         | [] => Err ValueError                                             (* np.concatenate([]) *)
         | _ => Ok (sort_by Z.leb (flat_map (fun bx => map fst (filter (fun r => in_box bx (fst (snd r)) (snd (snd r))) data)) boxes))
         end.
End Hist.
