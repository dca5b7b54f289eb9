(** plotting/base.py, plotting/scatter.py and the parts of hist1d.py, hist2d.py, solar_activity/plots.py that set
    labels, scales, paths, plotted data and colour bars. Drawing itself is not modelled. *)
From Coq Require Import List String Ascii Bool Arith ZArith.
From Verif Require Import Py PyStr Num.
Import ListNotations.
Open Scope string_scope.
Open Scope list_scope.

(** A label: None, a string, or an object with a [path] (one component, no separator: simplification). plotting/base.py 79-98 *)
Inductive plabel := PNone | PStr (s : string) | PObj (path : string).
(** plotting/base.py 115-141 *)
Fixpoint dashes (s : string) : string :=                       (* s.replace(" ", "-") *)
  match s with EmptyString => EmptyString | String c r => String (if Ascii.eqb c " " then "-" else c)%char (dashes r) end.
(** base.py 115-141: the component of a label *)
Definition component (dflt : string) (l : plabel) : string :=
  match l with PObj p => p | PStr s => if String.eqb s "None" then dflt else dashes s | PNone => dflt end.
(** ditto: base.py 115-141 *)
Fixpoint ends_in (suf s : string) : bool :=                    (* str.endswith *)
  String.eqb suf s || match s with EmptyString => false | String _ r => ends_in suf r end.

(** The plot classes that differ in [set_path]. plotting/base.py 100-159, 280-307, plotting/hist1d.py 87-104, solar_activity/plots.py 70-85 *)
Inductive pclass := Zdata (name : string) | Hist1 (name : string) | Indicator (name : string).
(** plotting/base.py 100-159, 280-307, plotting/hist1d.py 87-104, solar_activity/plots.py 70-85 *)
Definition class_name (c : pclass) : string := match c with Zdata n => n | Hist1 n => n | Indicator n => n end.
(** plotting/base.py 100-159, 280-307, plotting/hist1d.py 87-104, solar_activity/plots.py 70-85 *)
Record pstate := mkState { s_class : pclass; s_x : plabel; s_y : plabel; s_z : plabel; s_logx : bool; s_logy : bool; s_path : list string }.
(** The argument of set_path: "auto", None, or the components of a path. plotting/base.py 100-159, 280-307, plotting/hist1d.py 87-104, solar_activity/plots.py 70-85 *)
Inductive pnew := Auto | NoPath | Given (parts : list string).
(** plotting/base.py 100-159, 280-307, plotting/hist1d.py 87-104, solar_activity/plots.py 70-85 *)
Definition xscale (s : pstate) : string := if s_logx s then "logX" else "linX".
(** plotting/base.py 100-159, 280-307, plotting/hist1d.py 87-104, solar_activity/plots.py 70-85 *)
Definition yscale (s : pstate) : string := if s_logy s then "logY" else "linY".
(** An empty component does not count (Path("a") / "" is Path("a")). plotting/base.py 100-159, 280-307, plotting/hist1d.py 87-104, solar_activity/plots.py 70-85 *)
Definition parts (l : list string) : list string := filter (fun p => negb (String.eqb p "")) l.
(** base.py 100-159, 280-305 (PlotWithZdata); hist1d.py 87-102; solar_activity/plots.py 70-85 *)
Definition path_of (s : pstate) (new : pnew) (add_scale : bool) : list string :=
  let base := match new with
              | Auto => parts ([class_name (s_class s); component "x" (s_x s); component "y" (s_y s)]
                               ++ match s_class s with Zdata _ => [component "z" (s_z s)] | _ => [] end)
              | NoPath => []
              | Given p => p
              end in
  if negb add_scale then base
  else match s_class s with
       | Hist1 _ => base ++ [xscale s]
       | Indicator _ => base ++ [join "-" [xscale s; yscale s]]
       | Zdata _ =>
           let scale := join "-" [xscale s; yscale s] in
           match rev base with
           | last :: r => if ends_in "norm" last then rev r ++ [(scale ++ "-" ++ last)%string] else base ++ [scale]
           | [] => [scale]
           end
       end.
(** ditto: base.py 100-159, 280-305 *)
Definition set_path (new : pnew) (add_scale : bool) (s : pstate) : pstate :=
  mkState (s_class s) (s_x s) (s_y s) (s_z s) (s_logx s) (s_logy s) (path_of s new add_scale).
(** base.py 70-77 [set_log]: None keeps the scale; the path is not touched *)
Definition set_log (x y : option bool) (s : pstate) : pstate :=
  mkState (s_class s) (s_x s) (s_y s) (s_z s) (match x with Some b => b | None => s_logx s end)
    (match y with Some b => b | None => s_logy s end) (s_path s).
(** base.py 79-97, 309-311; hist1d.py 205-215 [set_labels]: keyword arguments; Hist1D has no z. Simplification: the
    rebuilding of a Count label is not here (Labels.v), None as a given label is [PNone]. *)
Definition set_labels (kw : list (string * plabel)) (auto_update_path : bool) (s : pstate) : result pstate :=
  let get k d := match find (fun e => String.eqb (fst e) k) kw with Some (_, v) => v | None => d end in
  let s' := mkState (s_class s) (get "x" (s_x s)) (get "y" (s_y s)) (get "z" (s_z s)) (s_logx s) (s_logy s) (s_path s) in
  match s_class s with
  | Hist1 _ => if mem_str "z" (map fst kw) then Err ValueError
               else if forallb (fun e => mem_str (fst e) ["x"; "y"; "z"]) kw
               then Ok (if auto_update_path then set_path Auto true s' else s') else Err KeyError
  | _ => if forallb (fun e => mem_str (fst e) ["x"; "y"; "z"]) kw
         then Ok (if auto_update_path then set_path Auto true s' else s') else Err KeyError
  end.
(** base.py 161-190 [_add_axis_labels], [_set_axis_scale]: what the drawn axes show: (xlabel, ylabel, xlog, ylog) *)
Definition drawn_axes (transpose : bool) (s : pstate) : plabel * plabel * bool * bool :=
  if transpose then (s_y s, s_x s, s_logy s, s_logx s) else (s_x s, s_y s, s_logx s, s_logy s).

Section Data.
  Context {T : Type} {A : Arith T}.
  (** base.py 264-278 [PlotWithZdata.set_data]. Simplification: x, y and z have the same index. *)
  Definition set_zdata (x y : list T) (z : option (list T)) : result (list (T * T * T)) :=
    let z := match z with Some z => z | None => map (fun _ => aofZ 1) x end in
    let rows := filter (fun r => negb (aisnan (fst (fst r)) || aisnan (snd (fst r)) || aisnan (snd r))) (combine (combine x y) z) in
    match rows with [] => Err ValueError | _ => Ok rows end.
  (** pandas min/max of a column without NaN. plotting/base.py 201-216 *)
  Definition col_min (l : list T) : T := match l with [] => anan | x :: r => fold_left (fun m v => if altb v m then v else m) r x end.
  (** plotting/base.py 201-216 *)
  Definition col_max (l : list T) : T := match l with [] => anan | x :: r => fold_left (fun m v => if altb m v then v else m) r x end.
  (** base.py 201-216 [DataLimFormatter._format_axis], scatter.py 41-55: the corners handed to update_datalim *)
  Definition data_corners (rows : list (T * T * T)) : (T * T) * (T * T) :=
    let xs := map (fun r => fst (fst r)) rows in let ys := map (fun r => snd (fst r)) rows in
    ((col_min xs, col_min ys), (col_max xs, col_max ys)).
  (** the number of distinct z values is above one (no NaN is left). plotting/base.py 264-278 *)
  Definition many_z (rows : list (T * T * T)) : bool :=
    match rows with [] => false | r0 :: rest => existsb (fun r => negb (aeqb (snd r) (snd r0))) rest end.

  (** A colour bar is drawn at some axes ([ax], stealing room) or in them ([cax]); axes are numbers. plotting/base.py 219-260 *)
  Record cbar_kwargs := mkCbar { k_ax : option nat; k_cax : option nat }.
  (** plotting/base.py 219-260 *)
  Inductive cbar_place := NextTo (ax : nat) | Inside (cax : nat).
  (** base.py 219-260 [_make_cbar] *)
  Definition make_cbar (k : cbar_kwargs) : result cbar_place :=
    match k_ax k, k_cax k with
    | Some _, Some _ => Err ValueError
    | Some a, None => Ok (NextTo a)
    | None, Some c => Ok (Inside c)
    | None, None => Err ValueError
    end.
  (** hist2d.py 396-406 and scatter.py 85-94: the colour bar and the caller's dict afterwards *)
  Definition place_cbar (ax : nat) (k : cbar_kwargs) : result cbar_place * cbar_kwargs :=
    let k := match k_ax k, k_cax k with None, None => mkCbar (Some ax) None | _, _ => k end in (make_cbar k, k).
  (** scatter.py 57-98 [make_plot]: the rows drawn, whether z colours them, the colour bar, the dict afterwards.
      [clip_data] (line 76) is not a method of Scatter. *)
  Definition scatter_plot (clip : bool) (rows : list (T * T * T)) (ax : nat) (cbar : bool) (k : cbar_kwargs)
      : result (list (T * T * T) * bool * option cbar_place) * cbar_kwargs :=
    if clip then (Err AttributeError, k)
    else if cbar && many_z rows then
      let '(r, k') := place_cbar ax k in (rmap (fun p => (rows, many_z rows, Some p)) r, k')
    else (Ok (rows, many_z rows, None), k).
End Data.

(** solar_activity/plots.py 63-68 [plot_data]: the indicator from the first plasma epoch on ([loc] by label on a sorted
    index, both ends included; rows are (time, value) in time order). *)
Definition indicator_data {V} (plasma_index : option (list Z)) (rows : list (Z * V)) : list (Z * V) :=
  match plasma_index with
  | None => rows
  | Some [] => rows                                            (* the minimum of an empty index is NaT: simplification, all rows *)
  | Some (t :: r) => let t0 := fold_left Z.min r t in filter (fun e => (t0 <=? fst e)%Z) rows
  end.
(** The module-level names of plotting/labels/special.py (lines 1-900). *)
Definition special_names : list string :=
  ["Path"; "StringTemplate"; "StringFormatter"; "abstractmethod"; "base"; "ArbitraryLabel"; "ManualLabel"; "Vsw"; "CarringtonRotation"; "Count"; "Power"; "Probability"; "CountOther"; "MathFcn"; "AbsoluteValue"; "Distance2Sun"; "SSN"; "ComparisonLable"; "Xcorr"].
(** solar_activity/plots.py 29-33, [IndicatorPlot.__init__]: the x label is [labels.special.DateTime("Year")]. *)
Definition new_indicator (name : string) : result pstate :=
  if mem_str "DateTime" special_names
  then Ok (mkState (Indicator name) (PObj "year") (PStr "y") PNone false false []) else Err AttributeError.
