(** plotting/select_data_from_figure.py: which data [sample_data] takes from the boxes drawn on a figure. Mouse events,
    drawing and texts are not modelled. *)
From Coq Require Import List String Bool Arith ZArith.
From Verif Require Import Py PyStr Num Sort Hist.
Import ListNotations.
Open Scope list_scope.

(** The random choice of pandas' [sample]: with or without replacement, how many, out of which labels. plotting/select_data_from_figure.py 186-265 *)
Definition sampler := bool -> nat -> list Z -> list Z.
(** drop_duplicates: the first of equal labels stays. plotting/select_data_from_figure.py 186-265 *)
Fixpoint first_of_each (seen l : list Z) : list Z :=
  match l with [] => [] | x :: r => if existsb (Z.eqb x) seen then first_of_each seen r else x :: first_of_each (x :: seen) r end.

Section Select.
  Context {T : Type} {A : Arith T} {TT : Transc T}.
  (** A box, in the units shown on the axes (x0, x1, y0, y1 of the selector), 142. plotting/select_data_from_figure.py 136-145 *)
  Record box := mkBox { b_x0 : T; b_x1 : T; b_y0 : T; b_y1 : T }.
  (** a row of the plotter's data, plotting/select_data_from_figure.py 186-265 *)
  Definition row := (Z * (T * T))%type.
  (** plotting/select_data_from_figure.py 229-237: the stored data are log10 where the axis is logarithmic *)
  Definition to_stored (lg : bool) (v : T) : T := if lg then log10 v else v.
  (** ditto: plotting/select_data_from_figure.py 229-237 *)
  Definition in_box (lx ly : bool) (b : box) (r : row) : bool :=
    let x := fst (snd r) in let y := snd (snd r) in
    (altb (to_stored lx (b_x0 b)) x && aleb x (to_stored lx (b_x1 b))) && (altb (to_stored ly (b_y0 b)) y && aleb y (to_stored ly (b_y1 b))).
  (** plotting/select_data_from_figure.py 200-223: the labels that other selections already took (None: no such argument; an object that has sampled nothing
      yet gives none) are dropped; when one of them is not in the data, [drop] raises and nothing is dropped *)
  Definition available (data : list row) (others : option (list (option (list Z)))) : list row :=
    match others with
    | None => data
    | Some l =>
        let taken := flat_map (fun o => match o with Some s => s | None => [] end) l in
        if forallb (fun i => existsb (fun r => Z.eqb (fst r) i) data) taken
        then filter (fun r => negb (existsb (Z.eqb (fst r)) taken)) data else data
    end.
  (** plotting/select_data_from_figure.py 243-261 one box: n labels without replacement, or with replacement and without duplicates when there are too few *)
  Definition sample_one (pick : sampler) (n : nat) (idx : list Z) : list Z :=
    if Nat.leb n (List.length idx) then pick false n idx else first_of_each [] (pick true n idx).
  (** ditto: plotting/select_data_from_figure.py 243-261 *)
  Record sampled := mkSampled { s_indices : list Z; s_failed : list box; s_per_patch : nat }.
  (** plotting/select_data_from_figure.py 186-265 [sample_data]; [frac] is refused *)
  Definition sample_data (pick : sampler) (lx ly : bool) (data : list row) (boxes : list box)
      (others : option (list (option (list Z)))) (n : nat) (frac : option T) : result sampled :=
    match frac with
    | Some _ => Err NotImplementedError
    | None =>
        let av := available data others in
        let inside b := map fst (filter (in_box lx ly b) av) in
        let step acc b := match inside b with
                          | [] => (fst acc, snd acc ++ [b])
                          | idx => (fst acc ++ sample_one pick n idx, snd acc)
                          end in
        let r := fold_left step boxes ([], []) in
        Ok {| s_indices := sort_by Z.leb (fst r); s_failed := snd r; s_per_patch := n |}
    end.
End Select.
