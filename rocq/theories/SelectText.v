(** plotting/select_data_from_figure.py: a session with a SelectFromPlot2D: boxes drawn with the mouse, what the text box says
    about them, and what disconnect draws. Mouse events and drawing itself are not modelled. *)
From Coq Require Import List String Ascii Bool Arith ZArith.
From Verif Require Import Py PyStr Num Sort Hist Labels MoreLabels Select.
Import ListNotations.
Open Scope string_scope.
Open Scope list_scope.

(** a line end (plotting/select_data_from_figure.py 89-95, 118-120) *)
Definition newline : string := String (ascii_of_nat 10) "".
(** str of a number of things (plotting/select_data_from_figure.py 89-92, 118) *)
Definition show_count (n : nat) : string := show_Z (Z.of_nat n).

Section SelectText.
  Context {T : Type} {A : Arith T} {TT : Transc T}.

  (** The object and the axes it is attached to: their patches, of which [se_initial] were there when the selector had been
      made (plotting/select_data_from_figure.py 15-28, 66-76, 82-86, 147-151, 180-184) *)
  Record session := mkSession {
    se_initial : nat; se_patches : nat; se_corners : list (box (T := T)); se_multi : bool;
    se_sampled : option (sampled (T := T)); se_text : string }.

  (** plotting/select_data_from_figure.py 15-28, 147-184 [__init__]. [rectprops]: does matplotlib's RectangleSelector take the argument of
      that name (until 3.6; afterwards TypeError); [axes]: how many axes the figure has; [patches]: how many patches are on these axes.
      The selector adds one of its own. *)
  Definition start (rectprops : bool) (axes : nat) (colorbar : bool) (patches : nat) : result session :=
    if rectprops
    then Ok (mkSession (patches + 1) (patches + 1) [] (Z.ltb 1 (Z.of_nat axes - (if colorbar then 1 else 0)))
               None "Selection Info Will Appear Here")
    else Err TypeError.

  (** plotting/select_data_from_figure.py 74-76 [num_selection_patches] *)
  Definition num_selection_patches (s : session) : Z := (Z.of_nat (se_patches s) - Z.of_nat (se_initial s))%Z.

  (** plotting/select_data_from_figure.py 99-120 [_update_text]. [sci]: the format .3e; [date]: num2date and strftime *)
  Definition corner_text (sci date : T -> string) (xdate ydate : bool) (x y : T) : string :=
    ("('" ++ (if xdate then date x else sci x) ++ "', '" ++ (if ydate then date y else sci y) ++ "')")%string.
  (** ditto: plotting/select_data_from_figure.py 118-122 *)
  Definition patch_text (sci date : T -> string) (xdate ydate : bool) (k : Z) (b : box (T := T)) : string :=
    ("Patch " ++ show_Z k ++ newline ++ "Lower Left  " ++ corner_text sci date xdate ydate (b_x0 b) (b_y0 b) ++ newline
     ++ "Upper Right " ++ corner_text sci date xdate ydate (b_x1 b) (b_y1 b))%string.
  (** plotting/select_data_from_figure.py 136-145 [onselect] *)
  Definition onselect (sci date : T -> string) (xdate ydate : bool) (b : box (T := T)) (s : session) : session :=
    let s' := mkSession (se_initial s) (se_patches s + 1) (se_corners s ++ [b]) (se_multi s) (se_sampled s) (se_text s) in
    mkSession (se_initial s') (se_patches s') (se_corners s') (se_multi s') (se_sampled s')
      (patch_text sci date xdate ydate (num_selection_patches s') b).

  (** plotting/select_data_from_figure.py 88-97 [_finalize_text]; line ends become dashes unless there are several panels *)
  Definition final_text (s : session) (d : sampled (T := T)) : string :=
    let tx := join newline
      [(show_Z (num_selection_patches s) ++ " Patches")%string;
       (show_count (s_per_patch d) ++ " Spectra / Patch")%string;
       (show_count (List.length (s_indices d)) ++ " Spectra Selected")%string;
       (show_count (List.length (s_failed d)) ++ " Empty Patches")%string] in
    if se_multi s then tx else replace newline "  -  " tx.
  (** plotting/select_data_from_figure.py 124-134 [disconnect]: sample, draw the sample, draw a patch for each empty box, the text *)
  Definition disconnect (pick : sampler) (lx ly : bool) (data : list (row (T := T))) (others : option (list (option (list Z))))
      (n : nat) (s : session) : result session :=
    d <- sample_data pick lx ly data (se_corners s) others n None ;;
    let s' := mkSession (se_initial s) (se_patches s + List.length (s_failed d)) (se_corners s) (se_multi s) (Some d) (se_text s) in
    Ok (mkSession (se_initial s') (se_patches s') (se_corners s') (se_multi s') (se_sampled s') (final_text s' d)).

  (** What happens to the axes: a box is drawn, somebody else adds a patch, disconnect (plotting/select_data_from_figure.py 124-145) *)
  Inductive event := Box (b : box (T := T)) | OtherPatch | Disconnect (others : option (list (option (list Z)))) (n : nat).
  (** one of them (plotting/select_data_from_figure.py 124-145) *)
  Definition step (sci date : T -> string) (xdate ydate : bool) (pick : sampler) (lx ly : bool) (data : list (row (T := T)))
      (s : session) (e : event) : result session :=
    match e with
    | Box b => Ok (onselect sci date xdate ydate b s)
    | OtherPatch => Ok (mkSession (se_initial s) (se_patches s + 1) (se_corners s) (se_multi s) (se_sampled s) (se_text s))
    | Disconnect others n => disconnect pick lx ly data others n s
    end.
  (** a session (plotting/select_data_from_figure.py 124-145) *)
  Fixpoint run (sci date : T -> string) (xdate ydate : bool) (pick : sampler) (lx ly : bool) (data : list (row (T := T)))
      (es : list event) (s : session) : result session :=
    match es with [] => Ok s | e :: r => s' <- step sci date xdate ydate pick lx ly data s e ;; run sci date xdate ydate pick lx ly data r s' end.

  (** data.loc[label] (plotting/select_data_from_figure.py 273). Simplification: the labels of the data are distinct. *)
  Fixpoint loc_row (data : list (row (T := T))) (i : Z) : result (T * T) :=
    match data with [] => Err KeyError | r :: more => if Z.eqb (fst r) i then Ok (snd r) else loc_row more i end.
  (** plotting/select_data_from_figure.py 267-304 [scatter_sample]: the points drawn *)
  Definition scatter_sample (lx ly : bool) (data : list (row (T := T))) (d : sampled (T := T)) : result (list (T * T)) :=
    pts <- mapM (loc_row data) (s_indices d) ;;
    Ok (map (fun p => ((if lx then exp10 (fst p) else fst p), (if ly then exp10 (snd p) else snd p))) pts).
End SelectText.
Arguments Box {T}. Arguments OtherPatch {T}. Arguments Disconnect {T}.
