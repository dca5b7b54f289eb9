(** solarwindpy/plotting/tools.py: grid sizes, axes grids with a common colour bar, joint legends and
    NaN-aware smoothing. matplotlib's drawing itself is not modelled: a figure is the list of grid cells the
    code asks for. *)
From Coq Require Import List ZArith QArith String Bool.
From Verif Require Import Py PyStr Sort Num.
Import ListNotations.
Open Scope Z_scope.

(* ------------------------------------------------------------ calculate_nrows_ncols *)

(** tools.py:407-408 and 414-415, [while n % root: root -= 1]. Python's [%] by zero raises
    ZeroDivisionError. [fuel] bounds the number of iterations; running out of it is [RecursionError], which
    the theorems show not to happen. *)
Fixpoint shrink_root (fuel : nat) (n root : Z) : result Z :=
  match fuel with
  | O => Err RecursionError
  | S f =>
      if root =? 0 then Err ZeroDivisionError
      else if n mod root =? 0 then Ok root
      else shrink_root f n (root - 1)
  end.

(** tools.py:406-409, [root = int(np.fix(np.sqrt(n)))], the loop, [other = int(n / root)]. The square root of
    a negative number is NaN and [int(nan)] raises ValueError. Simplification: [int(fix(sqrt n))] is the exact
    integer square root (true in binary64 for n < 2^52) and the float division of exact multiples is exact. *)
Definition near_square (n : Z) : result (Z * Z) :=
  if n <? 0 then Err ValueError
  else
    root <- shrink_root (S (Z.to_nat (Z.sqrt n))) n (Z.sqrt n) ;;
    Ok (root, n / root).

(** tools.py:385-423, [calculate_nrows_ncols]. *)
Definition calculate_nrows_ncols (n : Z) : result (Z * Z) :=
  ro <- near_square n ;;
  ro <- (if ((snd ro =? 1) || (fst ro =? 1)) && (4 <? n) then near_square (n + 1) else Ok ro) ;;
  let nrows := Z.max (fst ro) (snd ro) in
  let ncols := Z.min (fst ro) (snd ro) in
  if nrows <? 4 then Ok (ncols, nrows) else Ok (nrows, ncols).

(* ------------------------------------------------------------ build_ax_array_with_common_colorbar *)

(** A block of grid cells, rows [r_top..r_bot] and columns [c_left..c_right], inclusive
    (matplotlib's SubplotSpec). matplotlib GridSpec and axes as built in plotting/tools.py 224-383 *)
Record block := mkblock { r_top : nat; r_bot : nat; c_left : nat; c_right : nat }.

(** An axes object: its block, and whether it shares its x / y axis with the first axes created. matplotlib GridSpec and axes as built in plotting/tools.py 224-383 *)
Record axes := mkaxes { a_block : block; a_sharex : bool; a_sharey : bool }.

(** What the function leaves behind: the GridSpec ratios, the colour-bar block and the axes array. matplotlib GridSpec and axes as built in plotting/tools.py 224-383 *)
Record figure := mkfig {
  f_heights : list Q; f_widths : list Q; f_cax : block; f_axes : list (list axes) }.

(** [axes.squeeze()] and [axes.item()], tools.py:379-381: a single axes, a vector, or the full array. *)
Inductive squeezed := One (a : axes) | Vec (l : list axes) | Mat (m : list (list axes)).

(** np.squeeze, plotting/tools.py 224-383 *)
Definition squeeze (nrows ncols : nat) (m : list (list axes)) : squeezed :=
  if Nat.eqb nrows 1 then
    match m with
    | [row] => if Nat.eqb ncols 1 then match row with [a] => One a | _ => Vec row end else Vec row
    | _ => Mat m
    end
  else if Nat.eqb ncols 1 then Vec (List.concat m)
  else Mat m.

(** Python integer indexing of an axis of length [n]: negative indices count from the end. indexing of the GridSpec in plotting/tools.py 224-383 *)
Definition py_index (n : nat) (i : Z) : result nat :=
  let j := if i <? 0 then i + Z.of_nat n else i in
  if (0 <=? j) && (j <? Z.of_nat n) then Ok (Z.to_nat j) else Err IndexError.

(** The four values of [cbar_loc.lower()], tools.py:277-279. *)
Definition loc_ok (loc : string) : bool :=
  (String.eqb loc "top" || String.eqb loc "bottom" || String.eqb loc "left" || String.eqb loc "right")%bool.

(** tools.py:292-301, the height and width ratios. *)
Definition heights_of (loc : string) (nrows : nat) : list Q :=
  if (String.eqb loc "right" || String.eqb loc "left")%bool then repeat (1#1)%Q nrows
  else
    let h := ([75#1000; 5#100] ++ repeat (1#1) nrows)%Q%list in
    if String.eqb loc "bottom" then rev h else h.
(** plotting/tools.py 224-383 (width ratios) *)
Definition widths_of (loc : string) (ncols : nat) : list Q :=
  if (String.eqb loc "right" || String.eqb loc "left")%bool then
    let w := (repeat (1#1) ncols ++ [5#100; 75#1000])%Q%list in
    if String.eqb loc "left" then rev w else w
  else repeat (1#1)%Q ncols.

(** [gs[:, j]] and [gs[i, :]]. indexing of the GridSpec in plotting/tools.py 224-383 *)
Definition column_block (nr nc : nat) (j : Z) : result block :=
  c <- py_index nc j ;; Ok (mkblock 0 (Nat.pred nr) c c).
(** indexing of the GridSpec in plotting/tools.py 224-383 *)
Definition row_block (nr nc : nat) (i : Z) : result block :=
  r <- py_index nr i ;; Ok (mkblock r r 0 (Nat.pred nc)).
(** [gs[i, j]]. indexing of the GridSpec in plotting/tools.py 224-383 *)
Definition cell_block (nr nc : nat) (i j : Z) : result block :=
  r <- py_index nr i ;; c <- py_index nc j ;; Ok (mkblock r r c c).

(** Python's [range(lo, hi)]. indexing of the GridSpec in plotting/tools.py 224-383 *)
Definition py_range (lo hi : Z) : list Z :=
  map (fun k => lo + Z.of_nat k) (seq 0 (Z.to_nat (hi - lo))).

(** tools.py:320-337, the colour-bar block, the column range and the row range. *)
Definition cax_and_ranges (loc : string) (nr nc nrows ncols : nat) : result (block * list Z * list Z) :=
  let R := Z.of_nat nrows in let C := Z.of_nat ncols in
  if String.eqb loc "left" then
    b <- column_block nr nc 0 ;; Ok (b, py_range 2 (C + 2), py_range 0 R)
  else if String.eqb loc "right" then
    b <- column_block nr nc (-1) ;; Ok (b, py_range 0 C, py_range 0 R)
  else if String.eqb loc "top" then
    b <- row_block nr nc 0 ;; Ok (b, py_range 0 C, py_range 2 (R + 2))
  else if String.eqb loc "bottom" then
    b <- row_block nr nc (-1) ;; Ok (b, py_range 0 C, py_range 0 R)
  else Err ValueError.

(** tools.py:343-356, the double loop. [first] tells whether an axes was created before. *)
Definition build_axes (nr nc : nat) (rows cols : list Z) (sharex sharey : bool) : result (list (list axes)) :=
  mapM (fun ri : nat * Z =>
    mapM (fun cj : nat * Z =>
      b <- cell_block nr nc (snd ri) (snd cj) ;;
      let first := (Nat.eqb (fst ri) 0 && Nat.eqb (fst cj) 0)%bool in
      Ok (mkaxes b (negb first && sharex) (negb first && sharey)))
      (combine (seq 0 (List.length cols)) cols))
    (combine (seq 0 (List.length rows)) rows).

(** tools.py:224-382. [lower] is [str.lower]. Simplifications: figure size, spacing, tick and label positions
    are not modelled; GridSpec refuses (ValueError) a grid without rows or columns. *)
Definition build_ax_array_with_common_colorbar (lower : string -> string)
    (nrows ncols : nat) (cbar_loc : string) (sharex sharey : bool) : result (figure * squeezed) :=
  let loc := lower cbar_loc in
  if negb (loc_ok loc) then Err ValueError
  else
    let hs := heights_of loc nrows in
    let ws := widths_of loc ncols in
    let nr := List.length hs in let nc := List.length ws in
    if (Nat.eqb nr 0 || Nat.eqb nc 0)%bool then Err ValueError
    else
      crr <- cax_and_ranges loc nr nc nrows ncols ;;
      let '(cax, cols, rows) := crr in
      axs <- build_axes nr nc rows cols sharex sharey ;;
      Ok (mkfig hs ws cax axs, squeeze nrows ncols axs).

(* ------------------------------------------------------------ joint_legend *)

(** A legend handle as matplotlib returns it: a plain artist, or an ErrorbarContainer whose item 0 is the
    data line (tools.py:201-202). *)
Inductive handle := Artist (id : Z) | Errorbar (data_line : Z) (rest : list Z).
(** plotting/tools.py 162-222 *)
Definition plain (h : handle) : Z := match h with Artist i => i | Errorbar d _ => d end.

(** tools.py:196-212, the accumulation over the axes, in order; each axes gives its (handle, label) pairs. *)
Definition collect (axs : list (list (handle * string))) : list (string * Z) :=
  fold_left (fun acc hl => if mem_str (snd hl) (map fst acc) then acc else (acc ++ [(snd hl, plain (fst hl))])%list)
            (List.concat axs) [].

(** tools.py:214-219, [np.argsort(labels)] then fancy indexing of both arrays. Simplification: labels are
    distinct here, so argsort's (unstable) order is determined. *)
Definition joint_legend_entries (axs : list (list (handle * string))) : list (string * Z) :=
  sort_by (fun a b => str_leb (fst a) (fst b)) (collect axs).

(** tools.py:163-222. Returns the index of the axes carrying the legend, and its entries. Simplification:
    [np.array(handles)] keeps one object per handle. *)
Definition joint_legend (axs : list (list (handle * string))) (idx_for_legend : Z)
  : result (nat * list (string * Z)) :=
  k <- py_index (List.length axs) idx_for_legend ;;
  Ok (k, joint_legend_entries axs).

(* ------------------------------------------------------------ nan_gaussian_filter *)
Section Smooth.
  Context {T : Type} {A : Arith T}.
  Local Open Scope num_scope.

  (** [scipy.ndimage.gaussian_filter]: each output pixel is a fixed weighted sum of the input pixels (reflecting
      boundaries only change the weights). [K] is the matrix of weights over the flattened array. plotting/tools.py 491-492 *)
  Definition linear_filter (K : list (list T)) (arr : list T) : list T :=
    map (fun row => sum_strict (map (fun wx => fst wx * snd wx) (combine row arr))) K.

  (** tools.py:426-505, [nan_gaussian_filter]. *)
  Definition nan_gaussian_filter (K : list (list T)) (array : list T) : list T :=
    let nan_mask := map aisnan array in
    let arr := map (fun x => if aisnan x then a0 else x) array in
    let weights := map (fun m : bool => if m then a0 else a1) nan_mask in
    let filtered_data := linear_filter K arr in
    let filtered_weights := linear_filter K weights in
    let result :=
      map (fun dw => if agtb (snd dw) a0 then fst dw / snd dw else anan)
          (combine filtered_data filtered_weights) in
    map (fun mr : bool * T => if fst mr then anan else snd mr) (combine nan_mask result).
End Smooth.
