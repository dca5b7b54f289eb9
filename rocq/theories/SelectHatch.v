(** plotting/select_data_from_figure.py: the boxes without data are hatched. Extends [Select]. *)
From Coq Require Import List String Bool ZArith.
From Verif Require Import Py PyStr Num Select.
Import ListNotations.
Open Scope list_scope.

Section SelectHatch.
  Context {T : Type} {A : Arith T} {TT : Transc T}.
  Local Open Scope num_scope.
  (** mpl.patches.Rectangle: its lower left corner, its width and its height; it is hatched and not filled. plotting/select_data_from_figure.py 308-321 *)
  Record rectangle := mkRect { r_x : T; r_y : T; r_w : T; r_h : T }.
  (** plotting/select_data_from_figure.py 308-321 *)
  Definition rect_of (b : box (T := T)) : rectangle := mkRect (b_x0 b) (b_y0 b) (b_x1 b - b_x0 b) (b_y1 b - b_y0 b).
  (** plotting/select_data_from_figure.py 306-324 [plot_failed_samples]: the rectangles added to the axes, in order *)
  Definition hatched (d : sampled (T := T)) : list rectangle := map rect_of (s_failed d).
End SelectHatch.
