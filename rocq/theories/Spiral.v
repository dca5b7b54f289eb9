(** plotting/spiral.py: the adaptive ("spiral") mesh and its aggregate. Not modelled: logging, plotting, timing. *)
From Coq Require Import List Bool Arith ZArith String.
From Verif Require Import Py Num Sort Activity Hist.
Import ListNotations.
Open Scope py_scope.

Section Spiral.
  Context {T : Type} {A : Arith T}.
  Local Open Scope num_scope.

  (** one mesh row [x0, x1, y0, y1] (spiral.py 33, 52) *)
  Record box := mk_box { bx0 : T; bx1 : T; by0 : T; by1 : T }.
  (** spiral.py 34-38, 57: closed below, open above *)
  Definition in_cell (c : box) (p : T * T) : bool :=
    aleb (bx0 c) (fst p) && altb (fst p) (bx1 c) && aleb (by0 c) (snd p) && altb (snd p) (by1 c).
  (** spiral.py 27-41 [get_counts_per_bin]: entry i depends on bin i only, so the parallel loop is a map *)
  Definition cell_count (data : list (T * T)) (c : box) : nat := List.length (filter (in_cell c) data).

  (** spiral.py 173-198 [initialize_bins] *)
  Definition pairs (e : list T) : list (T * T) := combine (removelast e) (tl e).
  (** ditto: spiral.py 173-198 *)
  Definition initialize_bins (ex ey : list T) : list box :=
    map (fun q => mk_box (fst (fst q)) (snd (fst q)) (fst (snd q)) (snd (snd q))) (list_prod (pairs ex) (pairs ey)).

  (** spiral.py 210, 212-225: the four quarters *)
  Definition half (a b : T) : T := aofQ 1 2 * (a + b).
  (** ditto: spiral.py 210, 212-225 *)
  Definition split_cell (c : box) : list box :=
    let xh := half (bx0 c) (bx1 c) in
    let yh := half (by0 c) (by1 c) in
    [ mk_box (bx0 c) xh (by0 c) yh; mk_box xh (bx1 c) (by0 c) yh; mk_box xh (bx1 c) yh (by1 c); mk_box (bx0 c) xh yh (by1 c) ].

  (** spiral.py 200-235 [process_one_spiral_step]: overfull cells are overwritten with NaN in the old array (and so
      disappear from the final mesh, 345-346) and replaced by their quarters *)
  Definition overfull (min_per_bin : nat) (data : list (T * T)) (c : box) : bool := Nat.ltb min_per_bin (cell_count data c).
  (** spiral.py 323-346: the loop, [fuel] bounding the number of passes (None: not finished); [done] are the cells
      already settled in the earlier arrays *)
  Fixpoint refine (fuel : nat) (min_per_bin : nat) (data : list (T * T)) (done active : list box) : option (list box) :=
    match filter (overfull min_per_bin data) active with
    | [] => Some (done ++ active)
    | big => match fuel with
             | O => None
             | S f => refine f min_per_bin data
                        (done ++ filter (fun c => negb (overfull min_per_bin data c)) active)
                        (flat_map split_cell big)
             end
    end.
  (** ditto: spiral.py 323-346 *)
  Definition smallest (l : list T) (d : T) : T := match l with [] => d | x :: r => fold_left (fun m y => if altb y m then y else m) r x end.
  (** ditto: spiral.py 323-346 *)
  Definition largest (l : list T) (d : T) : T := match l with [] => d | x :: r => fold_left (fun m y => if altb m y then y else m) r x end.
  (** spiral.py 304-317: only finite data inside the closed outer rectangle are counted *)
  Definition in_mesh (cells : list box) (p : T * T) : bool :=
    aleb (smallest (map bx0 cells) anan) (fst p) && aleb (fst p) (largest (map bx1 cells) anan)
    && aleb (smallest (map by0 cells) anan) (snd p) && aleb (snd p) (largest (map by1 cells) anan)
    && aisfin (fst p) && aisfin (snd p).
  (** ditto: spiral.py 304-317 *)
  Definition finite_cell (c : box) : bool := aisfin (bx0 c) && aisfin (bx1 c) && aisfin (by0 c) && aisfin (by1 c).
  (** spiral.py 291-356 [generate_mesh]; no cell at all is a ValueError (min of an empty array, 304) *)
  Definition generate_mesh (fuel min_per_bin : nat) (ex ey : list T) (data : list (T * T)) : result (option (list box)) :=
    match initialize_bins ex ey with
    | [] => Err ValueError
    | cells => Ok (option_map (filter finite_cell) (refine fuel min_per_bin (filter (in_mesh cells) data) [] cells))
    end.

  (** spiral.py 44-62 [calculate_bin_number_with_numba]: the parallel loop over the cells writes i at every datum of
      cell i; a schedule is an order of all these element writes. *)
  Definition fill : Z := (-9999)%Z.
  (** ditto: spiral.py 44-62 *)
  Definition writes (mesh : list box) (data : list (T * T)) : list (nat * Z) :=
    flat_map (fun ic => map (fun kp => (fst kp, Z.of_nat (fst ic)))
                            (filter (fun kp => in_cell (snd ic) (snd kp)) (combine (seq 0 (List.length data)) data)))
             (combine (seq 0 (List.length mesh)) mesh).
  (** ditto: spiral.py 44-62 *)
  Definition run_writes (n : nat) (ws : list (nat * Z)) : list Z :=
    map (fun k => fold_left (fun acc w => if Nat.eqb (fst w) k then snd w else acc) ws fill) (seq 0 n).

  (** spiral.py 411-421 [build_cat]: with the pandas the project requires (>= 2.0) Categorical.remove_categories has no
      [inplace] argument, so a datum outside the mesh is a TypeError. *)
  Definition build_cat (zbin : list Z) : result (list Z) :=
    if existsb (Z.eqb (-9999)%Z) zbin then Err TypeError else Ok zbin.
  (** spiral.py 459-511 [build_grouped], [agg]: one value per cell; [keep] is cell_filter (101-137) *)
  Definition spiral_agg (f : fcn (T := T)) (clim : option T * option T) (keep : list bool) (ncells : nat) (zbin : list Z) (z : list T) : result (list T) :=
    cat <- build_cat zbin ;;
    if negb (Nat.eqb (List.length cat) (List.length z)) then Err ValueError else
    if negb (Nat.eqb (List.length keep) ncells) then Err ValueError else
    let rows := combine (map (fun b => Some (Z.to_nat b)) cat) z in
    let t := agg_runner nat Nat.eqb (seq 0 ncells) clim f rows in
    Ok (map (fun ik : nat * bool => if snd ik then at_key nat Nat.eqb t (fst ik) else anan) (combine (seq 0 ncells) keep)).

  (** numpy.quantile (linear interpolation) at i/n of the sorted data, 541-543. plotting/spiral.py 541-543 *)
  Definition quantile_at (s : list T) (i n : nat) : T :=
    let h := ((List.length s - 1) * i)%nat in
    let k := Nat.div h n in
    let lo := nth k s anan in
    let hi := nth (S k) s lo in
    lo + (hi - lo) * (ofnat (Nat.modulo h n) / ofnat n).
  (** spiral.py 514-555 [calc_initial_bins], one axis *)
  Definition replace_last (l : list T) (v : T) : list T := removelast l ++ [v].
  (** ditto: spiral.py 514-555 *)
  Definition widen (b : list T) : list T :=
    let top := aofQ 101 100 * largest b anan in
    replace_last b (if altb (aofQ 1 100) top then top else aofQ 1 100).
  (** ditto: spiral.py 514-555 *)
  Definition default_edges (n : nat) (data : list T) : result (list T) :=
    let d := sort_by aleb (finite data) in
    match d with
    | [] => Err IndexError                                          (* np.quantile of an empty array *)
    | x :: _ => Ok (widen (match n with O => [x] | _ => map (fun i => quantile_at d i n) (seq 0 (S n)) end))
    end.
  (** spiral.py 532-555, explicit edges (an ndarray): the last element is overwritten IN the caller's array, which is also the array kept; the
      first component is the array used, the second the caller's array afterwards. NaN among the edges makes max() NaN: an AssertionError (551), an empty
      array a ValueError (its [max]). Integer arrays, whose assignment would truncate, are not modelled. *)
  Definition explicit_edges (b : list T) : result (list T * list T) :=
    match b with
    | [] => Err ValueError
    | _ => let w := widen b in if existsb aisnan b then Err AssertionError else Ok (w, w)
    end.
  (** spiral.py 101-137 [cell_filter]: a threshold is a quantile i/n of the cells' areas (kept: strictly smaller) or densities (kept: strictly
      denser), None when off (False or 0). np.bincount refuses the negative fill number (ValueError), np.quantile no cells at all (IndexError). *)
  Definition area (c : box) : T := (bx1 c - bx0 c) * (by1 c - by0 c).
  (** ditto: spiral.py 101-137 *)
  Definition quantile (l : list T) (q : nat * nat) : T := quantile_at (sort_by aleb l) (fst q) (snd q).
  (** ditto: spiral.py 101-137 *)
  Definition bincount (ncells : nat) (zbin : list Z) : result (list nat) :=
    if existsb (fun b => Z.ltb b 0) zbin then Err ValueError
    else Ok (map (fun i => List.length (filter (fun b => Z.eqb b (Z.of_nat i)) zbin)) (seq 0 ncells)).
  (** ditto: spiral.py 101-137 *)
  Definition cell_filter (size dens : option (nat * nat)) (mesh : list box) (zbin : list Z) : result (list bool) :=
    let areas := map area mesh in
    tk <- match size with
          | None => Ok (map (fun _ => true) areas)
          | Some q => match areas with [] => Err IndexError | _ => Ok (map (fun a => altb a (quantile areas q)) areas) end
          end ;;
    match dens with
    | None => Ok tk
    | Some q =>
        cnt <- bincount (List.length mesh) zbin ;;
        match areas with
        | [] => Err IndexError
        | _ => let ds := map (fun ca => ofnat (fst ca) / snd ca) (combine cnt areas) in
               let Q := quantile ds q in
               Ok (map (fun td => fst td && altb Q (snd td)) (combine tk ds))
        end
    end.
End Spiral.
Arguments box : clear implicits.
