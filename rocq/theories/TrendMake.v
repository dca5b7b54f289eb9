(** fitfunctions/trend_fits.py: a TrendFit over a history of calls: which table and which classes its fits come from. What a fit computes is
    in [TrendFit]; here a fit is known by where it came from and what became of it. *)
From Coq Require Import List String Bool ZArith.
From Verif Require Import Py.
Import ListNotations.
Open Scope string_scope.
Open Scope list_scope.

(** What can be given as a class: None, something that is no class, or a class and whether it is a FitFunction. fitfunctions/trend_fits.py 548-558 *)
Inductive given := GNone | GNoClass | GClass (name : string) (is_fit : bool).
(** What can be given as the table: a DataFrame (known by its number and its columns) or anything else. Simplification: column labels
    are not repeated. fitfunctions/trend_fits.py 544-546 *)
Inductive table_given := GTable (id : Z) (cols : list Z) | GNoTable.
(** What has become of a 1d fit. fitfunctions/trend_fits.py 139-160, 295-305 *)
Inductive fate := Unfitted | Fitted | Failed.
(** A 1d fit: its column, the table its data and the class it come from, and its fate. fitfunctions/trend_fits.py 139-160 *)
Record fit1d := mkFit1d { f_col : Z; f_table : Z; f_cls : string; f_fate : fate }.
(** The attributes of a TrendFit that calls change; None: not set yet. [tm_trend]: the class of the trend function and the fits it was given.
    fitfunctions/trend_fits.py 72-137 *)
Record tfit := mkTfit { tm_table : Z; tm_cols : list Z; tm_1d : string; tm_cls : string; tm_ffuncs : option (list fit1d); tm_bad : option (list fit1d);
                        tm_trend : option (string * list fit1d) }.

(** fitfunctions/trend_fits.py 549-555: issubclass raises TypeError for what is no class *)
Definition fit_class (g : given) : result string := match g with GClass n true => Ok n | _ => Err TypeError end.
(** fitfunctions/trend_fits.py 549-550 *)
Definition or_gaussian (g : given) : given := match g with GNone => GClass "Gaussian" true | _ => g end.
(** fitfunctions/trend_fits.py 548-558 [set_fitfunctions] *)
Definition classes (one trend : given) : result (string * string) :=
  a <- fit_class (or_gaussian one) ;; b <- fit_class trend ;; Ok (a, b).
(** fitfunctions/trend_fits.py 33-75 *)
Definition new_tfit (g : table_given) (one trend : given) : result tfit :=
  match g with
  | GNoTable => Err AssertionError
  | GTable id cols => ab <- classes one trend ;; Ok (mkTfit id cols (fst ab) (snd ab) None None None)
  end.

(** The calls. fitfunctions/trend_fits.py 139-160, 162-305, 363-397, 544-558 *)
Inductive call := SetTable (g : table_given) | SetClasses (one trend : given) | MakeFfuncs | MakeFits | MakeTrend.

Section Calls.
  (** [refuses cls table col]: what the class raises when it is made from the column, if anything; [fits]: its fit does not fail
      (fitfunctions/trend_fits.py 139-160, 297-302) *)
  Variable refuses : string -> Z -> Z -> option exn.
  Variable fits : string -> Z -> Z -> bool.

  (** fitfunctions/trend_fits.py 139-160 [make_ffunc1ds]: in the order of the columns; the first exception ends it *)
  Definition made (o : tfit) : result (list fit1d) :=
    mapM (fun c => match refuses (tm_1d o) (tm_table o) c with Some e => Err e | None => Ok (mkFit1d c (tm_table o) (tm_1d o) Unfitted) end) (tm_cols o).
  (** fitfunctions/trend_fits.py 297-299 *)
  Definition fitted (f : fit1d) : fit1d := mkFit1d (f_col f) (f_table f) (f_cls f) (if fits (f_cls f) (f_table f) (f_col f) then Fitted else Failed).
  (** fitfunctions/trend_fits.py 302: what dropna leaves *)
  Definition has_failed (f : fit1d) : bool := match f_fate f with Failed => true | _ => false end.
  (** fitfunctions/trend_fits.py 103-108: popt of a fit that has not been made raises AttributeError *)
  Definition has_popt (f : fit1d) : bool := match f_fate f with Fitted => true | _ => false end.
  (** one call: what it raises, if anything, and the object after it. Simplification: make_1dfits with return_exception=True and one job.
      fitfunctions/trend_fits.py 139-160, 162-305, 363-397, 544-558 *)
  Definition do_call (o : tfit) (c : call) : option exn * tfit :=
    match c with
    | SetTable GNoTable => (Some AssertionError, o)
    | SetTable (GTable id cols) => (None, mkTfit id cols (tm_1d o) (tm_cls o) (tm_ffuncs o) (tm_bad o) (tm_trend o))
    | SetClasses one trend =>
        match classes one trend with
        | Err e => (Some e, o)
        | Ok (a, b) => (None, mkTfit (tm_table o) (tm_cols o) a b (tm_ffuncs o) (tm_bad o) (tm_trend o))
        end
    | MakeFfuncs =>
        match made o with
        | Err e => (Some e, o)
        | Ok l => (None, mkTfit (tm_table o) (tm_cols o) (tm_1d o) (tm_cls o) (Some l) (tm_bad o) (tm_trend o))
        end
    | MakeFits =>
        match tm_ffuncs o with
        | None => (Some AttributeError, o)
        | Some l => let l' := map fitted l in
                    (None, mkTfit (tm_table o) (tm_cols o) (tm_1d o) (tm_cls o) (Some (filter (fun f => negb (has_failed f)) l')) (Some (filter has_failed l')) (tm_trend o))
        end
    | MakeTrend =>
        match tm_ffuncs o with
        | None => (Some AttributeError, o)
        | Some l => if negb (forallb has_popt l) then (Some AttributeError, o)
                    else match l with
                         | [] => (Some ValueError, o)
                         | _ => (None, mkTfit (tm_table o) (tm_cols o) (tm_1d o) (tm_cls o) (tm_ffuncs o) (tm_bad o) (Some (tm_cls o, l)))
                         end
        end
    end.
  (** a history: calls that raise are survived by the caller. fitfunctions/trend_fits.py 139-397 *)
  Definition after (o : tfit) (h : list call) : tfit := fold_left (fun o c => snd (do_call o c)) h o.
End Calls.
