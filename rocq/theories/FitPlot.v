(** fitfunctions/plots.py: what FFPlot draws and where it says it should be saved. Drawing itself (matplotlib)
    is not modelled; the data handed to it are. *)
From Coq Require Import List String Ascii Bool Arith ZArith Reals.
From Verif Require Import Py PyStr Num FitCore.
Import ListNotations.
Open Scope string_scope.
Open Scope list_scope.

(** An axis label: an object with a [path], or anything else (its [str]); [None] prints as "None". fitfunctions/plots.py 70-95 *)
Inductive axis_label := LObj (path : string) | LPlain (str : string).
(** fitfunctions/plots.py 73-87: the component of a label. Simplification: one component per label, not empty, no separator in it. *)
Definition ff_component (l : axis_label) : string := match l with LObj p => p | LPlain s => s end.
(** ditto: fitfunctions/plots.py 73-87 *)
Record ff_axes := mkAxes { ax_x : axis_label; ax_y : axis_label; ax_z : option axis_label; ax_logx : bool; ax_logy : bool }.
(** fitfunctions/plots.py 69-94 [path] (line 90: both branches of the y scale are "logY") *)
Definition ff_path (name : string) (a : ff_axes) : list string :=
  ["FFPlot"; name; ff_component (ax_x a); ff_component (ax_y a)]
  ++ match ax_z a with Some z => [ff_component z] | None => [] end
  ++ [join "_" [if ax_logx a then "logX" else "linX"; if ax_logy a then "logY" else "logY"]].
(** fitfunctions/plots.py 737-751 [set_labels], 753-762 [set_log]: keyword arguments in call order *)
Definition ff_set_label (kw : list (string * axis_label)) (a : ff_axes) : result ff_axes :=
  let get k d := match find (fun e => String.eqb (fst e) k) kw with Some (_, v) => v | None => d end in
  let getz := match find (fun e => String.eqb (fst e) "z") kw with Some (_, v) => Some v | None => ax_z a end in
  if forallb (fun e => mem_str (fst e) ["x"; "y"; "z"]) kw
  then Ok {| ax_x := get "x" (ax_x a); ax_y := get "y" (ax_y a); ax_z := getz; ax_logx := ax_logx a; ax_logy := ax_logy a |}
  else Err KeyError.
(** ditto: fitfunctions/plots.py 737-751 *)
Definition ff_set_log (kw : list (string * bool)) (a : ff_axes) : result ff_axes :=
  let get k d := match find (fun e => String.eqb (fst e) k) kw with Some (_, v) => v | None => d end in
  if forallb (fun e => mem_str (fst e) ["x"; "y"]) kw
  then Ok {| ax_x := ax_x a; ax_y := ax_y a; ax_z := ax_z a; ax_logx := get "x" (ax_logx a); ax_logy := get "y" (ax_logy a) |}
  else Err TypeError.

Section FFPlot.
  Context {T : Type} {A : Arith T}.
  Local Open Scope num_scope.
  (** The optimiser's result object as FFPlot sees it: None, or its [fun] array. fitfunctions/plots.py 22-120 *)
  Record ffplot := mkPlot { p_obs : used_raw (T := T); p_yfit : list T; p_fun : option (list T) }.
  (** fitfunctions/plots.py 114-120 [set_observations] (shapes are lengths: one-dimensional data) *)
  Definition ff_new (u : used_raw) (yfit : list T) (fn : option (list T)) : result ffplot :=
    if negb (Nat.eqb (List.length yfit) (List.length (o_x (u_raw u)))) then Err AssertionError
    else if negb (Nat.eqb (List.length (select (u_mask u) yfit)) (List.length (o_x (u_used u)))) then Err AssertionError
    else Ok {| p_obs := u; p_yfit := yfit; p_fun := fn |}.
  (** fitfunctions/plots.py 719-735 [residuals]; arrays of different lengths do not subtract *)
  Definition ff_residuals (p : ffplot) (pct robust : bool) : result (list T) :=
    let used := select (u_mask (p_obs p)) (p_yfit p) in
    bind (if robust then match p_fun p with Some r => Ok r | None => Err AttributeError end
          else Ok (map2 (fun f y => f - y) used (o_y (u_used (p_obs p)))))
      (fun r => Ok (if pct then map2 (fun ri f => aofZ 100 * (ri / f)) r used else r)).
  (** fitfunctions/plots.py 239-278 and 330-366: the curve and the window drawn by plot_raw and plot_used. Weights that are None count as 0. *)
  Definition ff_window (o : obs (T := T)) : list (T * T * T) :=
    match o_w o with
    | None => map2 (fun x y => (x, y - aofZ 0, y + aofZ 0)) (o_x o) (o_y o)
    | Some w => map2 (fun xy wi => (fst xy, snd xy - wi, snd xy + wi)) (map2 pair (o_x o) (o_y o)) w
    end.
  (** fitfunctions/plots.py 571-652 the residual curves drawn: [kind] after lower() *)
  Inductive resid_curve := Simple (r : list T) | Robust (r : list T).
  (** ditto: fitfunctions/plots.py 571-652 *)
  Definition ff_plot_residuals (p : ffplot) (pct : bool) (kind : string) : result (list resid_curve) :=
    if mem_str kind ["simple"; "robust"] then
      rmap (fun r => [if String.eqb kind "robust" then Robust r else Simple r]) (ff_residuals p pct (String.eqb kind "robust"))
    else if String.eqb kind "both" then
      bind (ff_residuals p pct false) (fun s =>
        match ff_residuals p pct true with
        | Ok r => Ok [Simple s; Robust r]
        | Err AttributeError => Ok [Simple s]
        | Err e => Err e
        end)
    else Ok [].
End FFPlot.

(** fitfunctions/plots.py 122-140 [_estimate_markevery]: int(10.0 ** floor(log10(n) - 1)) for n used points, in exact arithmetic:
    10 ** e is below 1 for e < 0, so that int gives 0; log10(0) = -inf gives 0 too. The OverflowError branch
    (132) is never taken. *)
Definition markevery (n : nat) : option Z :=
  match n with
  | O => None
  | S _ => let e := Int_part (ln (INR n) / ln 10 - 1)%R in if (e <? 0)%Z then None else Some (10 ^ e)%Z
  end.

(** fitfunctions/plots.py 694-711 [plot_raw_used_fit_resid]: the caller's resid_kwargs dict is popped from; the result is the pct that
    plot_residuals gets and the dict afterwards. *)
Definition pop_resid_pct (d : list (string * bool)) : bool * list (string * bool) :=
  (match find (fun e => String.eqb (fst e) "resid_pct") d with Some (_, b) => b | None => true end,
   filter (fun e => negb (String.eqb (fst e) "resid_pct")) d).

(** str.lstrip(chars), str.strip(chars). as used in fitfunctions/plots.py 570-591 *)
Fixpoint lstrip (chars s : string) : string :=
  match s with EmptyString => EmptyString | String c r => if has_char c chars then lstrip chars r else s end.
(** as used in fitfunctions/plots.py 570-591 *)
Fixpoint srev (s : string) : string := match s with EmptyString => EmptyString | String c r => (srev r ++ String c "")%string end.
(** as used in fitfunctions/plots.py 570-591 *)
Definition strip (chars s : string) : string := srev (lstrip chars (srev (lstrip chars s))).
(** fitfunctions/plots.py 570, 585-591, 608-619: the legend label of a residual curve; [Kind] is kind.title() *)
Definition resid_label_one (label Kind : string) : string :=
  let label := strip "$" label in
  if String.eqb label "" then ("$\mathrm{ \; " ++ Kind ++ "}$")%string
  else ("$\mathrm{" ++ lstrip " \; " (join " \; " [label; Kind]) ++ "}$")%string.
(** ditto: fitfunctions/plots.py 570, 585-591, 608-619 *)
Definition resid_label_both (label Kind : string) : string :=
  let label := strip "$" label in
  if String.eqb label "" then ("$\mathrm{ \; " ++ Kind ++ "}$")%string
  else ("$\mathrm{" ++ label ++ " \; " ++ Kind ++ "}$")%string.
