(** instabilities/verscharen2016.py: the colours of the stability map. Extends [Instability]. *)
From Coq Require Import Reals List String Bool ZArith.
From Verif Require Import Py Num Instability.
Import ListNotations.
Open Scope string_scope.

(** instabilities/verscharen2016.py 232-236 [stability_map_inverse] *)
Definition stability_map_inverse : list (string * Z) := map (fun kv => (snd kv, fst kv)) stability_map.
(** instabilities/verscharen2016.py 282-285: Python's [min] and [max] over the keys of the map *)
Definition min_key (l : list Z) : Z := match l with [] => 0%Z | x :: r => fold_left Z.min r x end.
(** ditto: instabilities/verscharen2016.py 282-285 *)
Definition max_key (l : list Z) : Z := match l with [] => 0%Z | x :: r => fold_left Z.max r x end.
(** instabilities/verscharen2016.py 274-287 [norm]: the limits of matplotlib's Normalize *)
Definition norm_limits : R * R := (IZR (min_key (map fst stability_map)) - / 2, IZR (max_key (map fst stability_map)) + / 2)%R.
(** instabilities/verscharen2016.py 267-271 [cmap]: the number of colours of the listed map *)
Definition n_colours : Z := Z.of_nat (List.length stability_map).
(** instabilities/verscharen2016.py 267-287: what matplotlib draws for the value [x] under the norm and the colour map of the object: no
    colour of the map below or above it, else the colour at the position of [x] between the limits, the upper limit having the last. *)
Definition colour_of (x : R) : option Z :=
  let '(lo, hi) := norm_limits in
  let p := ((x - lo) / (hi - lo))%R in
  if Rlt_dec p 0 then None else if Rlt_dec 1 p then None
  else if Req_EM_T p 1 then Some (n_colours - 1)%Z else Some (Int_part (p * IZR n_colours)).
(** instabilities/verscharen2016.py 293-296: the text of the colour bar at the tick [v] *)
Definition tick_text (v : Z) : result string :=
  match find (fun kv => Z.eqb (fst kv) v) stability_map with Some kv => Ok (snd kv) | None => Err KeyError end.
(** instabilities/verscharen2016.py 296: insertion into a sorted list *)
Fixpoint insert_key (x : Z) (l : list Z) : list Z :=
  match l with [] => [x] | y :: r => if (x <=? y)%Z then x :: l else y :: insert_key x r end.
(** instabilities/verscharen2016.py 296 [sorted(self.stability_map.keys())] *)
Definition ticks : list Z := fold_right insert_key [] (map fst stability_map).
