(** instabilities/verscharen2016.py: thresholds and stability bins. *)
From Coq Require Import List String Bool Arith ZArith.
From Verif Require Import Py PyStr Num.
Import ListNotations.
Open Scope string_scope.
Open Scope list_scope.

(** instabilities/verscharen2016.py 30-65, 143-163 *)
Inductive inst := AIC | FMW | MM | OFI.

(** instabilities/verscharen2016.py 30-65 [insta_params]: (a, b, c) in thousandths, None for an unknown
    growth rate. *)
Definition insta_params (growth_rate : Z) (i : inst) : option (Z * Z * Z) :=
  (match growth_rate with
   | -4 => Some (match i with AIC => (367, 364, 11) | FMW => (-408, 529, 410)
                        | MM => (702, 674, -9) | OFI => (-1454, 1023, -178) end)
   | -3 => Some (match i with AIC => (437, 428, -3) | FMW => (-497, 566, 543)
                        | MM => (801, 763, -63) | OFI => (-1390, 1005, -111) end)
   | -2 => Some (match i with AIC => (649, 400, 0) | FMW => (-647, 583, 713)
                        | MM => (1040, 633, -12) | OFI => (-1447, 1000, -148) end)
   | _ => None
   end)%Z.

Section Instability.
  Context {T : Type} {A : Arith T} {TT : Transc T}.
  Local Open Scope num_scope.

  (** instabilities/verscharen2016.py 107-140 [beta_ani_inst]. Simplification: a negative [beta - c] gives NaN; numpy agrees unless the
      exponent is the integer 1 (OFI at growth rate -2), where it gives a finite number, but then
      [beta] is below -0.148. *)
  Definition beta_ani_inst (p : Z * Z * Z) (beta : T) : T :=
    let '(a, b, c) := p in
    aofZ 1 + (aofQ a 1000 / tpow (beta - aofQ c 1000) (aofQ b 1000)).

  (** instabilities/verscharen2016.py 102-104, 244-253: [np.greater] for AIC and MM, [np.less] for FMW and OFI *)
  Definition inst_test (i : inst) (r thr : T) : bool :=
    match i with AIC | MM => agtb r thr | FMW | OFI => altb r thr end.

  (** The four columns of [is_unstable], each None while it is missing. instabilities/verscharen2016.py 342-378 *)
  Definition flags := inst -> option bool.
  (** instabilities/verscharen2016.py 342-378 *)
  Definition set_flag (k : inst) (v : option bool) (f : flags) : flags := fun i =>
    match k, i with AIC, AIC | FMW, FMW | MM, MM | OFI, OFI => v | _, _ => f i end.
  (** instabilities/verscharen2016.py 342-378 *)
  Definition others (k : inst) : list inst :=
    match k with AIC => [FMW; MM; OFI] | FMW => [AIC; MM; OFI] | MM => [AIC; FMW; OFI] | OFI => [AIC; FMW; MM] end.
  (** instabilities/verscharen2016.py 347-357 *)
  Definition raw_flags (thr : inst -> T) (r : T) : flags := fun i =>
    if aisnan (thr i) then None else Some (inst_test i r (thr i)).
  (** instabilities/verscharen2016.py 360-371: a missing column takes the conjunction of the others (missing ones counting as False), one
      column after the other *)
  Definition fill_flag (f : flags) (k : inst) : flags :=
    match f k with
    | Some _ => f
    | None => set_flag k (Some (forallb (fun i => match f i with Some b => b | None => false end) (others k))) f
    end.
  (** ditto: instabilities/verscharen2016.py 360-371 *)
  Definition is_unstable (thr : inst -> T) (r : T) : flags :=
    fold_left fill_flag [AIC; FMW; MM; OFI] (raw_flags thr r).
  (** ditto: instabilities/verscharen2016.py 360-371 *)
  Definition flag (f : flags) (i : inst) : bool := match f i with Some b => b | None => false end.
  (** instabilities/verscharen2016.py 380-411: the bin after the successive overwrites; -9999 if none applied *)
  Definition stability_bin (f : flags) : Z :=
    let bin := (-9999)%Z in
    let bin := if negb (flag f AIC) && negb (flag f FMW) && negb (flag f MM) && negb (flag f OFI) then 2%Z else bin in
    let bin := if flag f AIC && negb (flag f MM) then 3%Z else bin in
    let bin := if flag f MM then 4%Z else bin in
    let bin := if flag f FMW && negb (flag f OFI) then 1%Z else bin in
    if flag f OFI then 0%Z else bin.

  (** instabilities/verscharen2016.py 328-340, 447-460 *)
  Definition thresholds (params : inst -> Z * Z * Z) (beta : T) (i : inst) : T := beta_ani_inst (params i) beta.

  (** instabilities/verscharen2016.py 143-178, 413-422: the constructor, one (beta, anisotropy) pair per row. [has_iteritems] is whether the
      installed pandas still has [DataFrame.iteritems] (removed in pandas 2.0; the project requires pandas >= 2.0). *)
  Definition stability (has_iteritems : bool) (growth_rate : Z) (rows : list (T * T)) : result (list Z) :=
    match insta_params growth_rate AIC, insta_params growth_rate FMW, insta_params growth_rate MM, insta_params growth_rate OFI with
    | Some pa, Some pf, Some pm, Some po =>
        if negb has_iteritems then Err AttributeError                          (* 350 *)
        else
          let params := fun i => match i with AIC => pa | FMW => pf | MM => pm | OFI => po end in
          let bins := map (fun br => stability_bin (is_unstable (thresholds params (fst br)) (snd br))) rows in
          if existsb (fun b => Z.eqb b (-9999)) bins then Err ValueError       (* 406-409 *)
          else Ok bins
    | _, _, _, _ => Err KeyError                                               (* 318 *)
    end.

  (** instabilities/verscharen2016.py 220-230 [stability_map] *)
  Definition stability_map : list (Z * string) :=
    [(4%Z, "MM"); (3%Z, "Between AIC & MM"); (2%Z, "Stable"); (1%Z, "Between FMW & OFI"); (0%Z, "OFI")].
End Instability.

(** instabilities/verscharen2016.py 550-623 [_add_table_legend]: handles and labels are listed column by column of a 5-row table; the first
    column holds the row labels, the others one growth rate each (first row: the growth rate). *)
Definition legend_row_labels : list string := [""; "AIC"; "FMW"; "MM"; "OFI"].
(** ditto: instabilities/verscharen2016.py 550-623 *)
Definition legend_column : list (option inst) := [None; Some MM; Some AIC; Some FMW; Some OFI].
(** ditto: instabilities/verscharen2016.py 550-623 *)
Definition inst_name (i : inst) : string := match i with AIC => "AIC" | FMW => "FMW" | MM => "MM" | OFI => "OFI" end.
