(** plotting/orbits.py: the inbound and outbound legs, histograms per leg and which orbit plots can be drawn. Drawing is
    not modelled. pandas 2.3: groupby keeps empty cells (observed=False). *)
From Coq Require Import List String Ascii Bool Arith ZArith.
From Verif Require Import Py PyStr Num Sort Activity Hist Icme.
Import ListNotations.
Open Scope list_scope.

(* ------------------------------------------------------------------ legs. plotting/orbits.py 54-70 *)
Inductive leg := Inbound | Outbound.
(** plotting/orbits.py 54-70 *)
Definition leg_eqb (a b : leg) : bool := match a, b with Inbound, Inbound | Outbound, Outbound => true | _, _ => false end.
(** which ends of the intervals of a pandas IntervalIndex belong to them. plotting/orbits.py 54-70 *)
Inductive closed := Right | Left | Both | Neither.
(** plotting/orbits.py 54-70 *)
Definition iv := (Z * Z)%type.
(** plotting/orbits.py 54-70 *)
Definition inside_iv (c : closed) (i : iv) (t : Z) : bool :=
  (match c with Left | Both => Z.leb (fst i) t | _ => Z.ltb (fst i) t end) && (match c with Right | Both => Z.leb t (snd i) | _ => Z.ltb t (snd i) end).
(** IntervalIndex.sort_values: by left, then right end. plotting/orbits.py 54-70 *)
Definition iv_leb (a b : iv) : bool := if Z.eqb (fst a) (fst b) then Z.leb (snd a) (snd b) else Z.ltb (fst a) (fst b).
(** What set_orbit may be given, 48-52: anything but an IntervalIndex is a TypeError. plotting/orbits.py 48-52 *)
Inductive orbit_arg := Intervals (c : closed) (l : list iv) | NotIntervals.
(** plotting/orbits.py 48-52 *)
Definition set_orbit (a : orbit_arg) : result (closed * list iv) :=
  match a with NotIntervals => Err TypeError | Intervals c l => Ok (c, sort_by iv_leb l) end.
(** IntervalIndex.is_overlapping of intervals in order: one starts before its predecessor ends (or when, if both ends belong). plotting/orbits.py 54-70 *)
Fixpoint overlapping (c : closed) (l : list iv) : bool :=
  match l with
  | a :: ((b :: _) as r) => (match c with Both => Z.leb (fst b) (snd a) | _ => Z.ltb (fst b) (snd a) end) || overlapping c r
  | _ => false
  end.
(** pd.cut(index, orbit): ValueError for overlapping intervals, else the number of the one that holds the time. plotting/orbits.py 54-70 *)
Fixpoint which (c : closed) (l : list iv) (k : nat) (t : Z) : option nat :=
  match l with [] => None | i :: r => if inside_iv c i t then Some k else which c r (S k) t end.
(** plotting/orbits.py 54-70 [make_cut]: the first interval is labelled Inbound, the second Outbound, further ones not at all *)
Definition legs (c : closed) (orbit : list iv) (times : list Z) : result (list (option leg)) :=
  if overlapping c orbit then Err ValueError
  else match orbit with
       | _ :: _ :: _ => Ok (map (fun t => match which c orbit 0 t with Some 0%nat => Some Inbound | Some 1%nat => Some Outbound | _ => None end) times)
       | _ => Err IndexError
       end.
(** ditto: plotting/orbits.py 54-70 *)
Definition orbit_legs (a : orbit_arg) (times : list Z) : result (list (option leg)) :=
  bind (set_orbit a) (fun o => legs (fst o) (snd o) times).

(* ------------------------------------------------------------------ histograms per leg *)
Section Tables.
  Context {T : Type} {A : Arith T} {TR : Transc T}.
  Local Open Scope num_scope.
  (** 36-40 [grouped], agg_plot.py 308-347: one entry per bin and leg, data or not; counts outside the limits become NaN *)
  Section Keys.
    Variable K : Type.
    Variable keqb : K -> K -> bool.
    (** the groups of plotting/orbits.py 37-40, 81-103, 180-207 *)
    Definition with_leg (k : option K) (l : option leg) : option (K * leg) := match k, l with Some k, Some l => Some (k, l) | _, _ => None end.
    (** the groups of plotting/orbits.py 37-40, 81-103, 180-207 *)
    Definition kl_eqb (a b : K * leg) : bool := keqb (fst a) (fst b) && leg_eqb (snd a) (snd b).
    (** the groups of plotting/orbits.py 37-40, 81-103, 180-207 *)
    Definition leg_table (keys : list K) (clim : option T * option T) (f : fcn) (rows : list (option K * T)) (ls : list (option leg)) : list ((K * leg) * T) :=
      let rs := map (fun rl => (with_leg (fst (fst rl)) (snd rl), snd (fst rl))) (combine rows ls) in
      map (fun k => (k, if within clim (count (members (K * leg) kl_eqb rs k)) then the_fcn f (map snd rows) (members (K * leg) kl_eqb rs k) else anan))
          (list_prod keys [Inbound; Outbound]).
    (** the groups of plotting/orbits.py 37-40, 81-103, 180-207 *)
    Definition leg_value (t : list ((K * leg) * T)) (k : K) (l : leg) : T := at_key (K * leg) kl_eqb t (k, l).
  End Keys.
  (** 81-103 [OrbitHist1D.agg]: a density needs the lengths of the intervals of an index of pairs (hist1d.py 180: TypeError) *)
  Definition orbit_agg1 (norm : axnorm1) (clim : option T * option T) (b : list T) (f : fcn) (data : list (T * T)) (ls : list (option leg))
      : result (list ((nat * leg) * T)) :=
    match norm, f with
    | N1Density, FOther _ => Err ValueError
    | N1Density, _ => Err TypeError
    | N1None, _ => Ok (leg_table nat Nat.eqb (bins b) clim f (rows1 b data) ls)
    end.
  (** the keys (x, y, leg) of orbits.py 180-207 *)
  Definition k3 : Type := k2 * leg.
  (** orbits.py 180-207 with hist2d.py 163-232 *)
  Definition some_entries (q : k3 -> bool) (t : list (k3 * T)) : list T := map snd (filter (fun kv => q (fst kv)) t).
  (** orbits.py 180-207 with hist2d.py 163-232 *)
  Definition same_x (a b : k3) : bool := Nat.eqb (fst (fst a)) (fst (fst b)).
  (** orbits.py 180-207 with hist2d.py 163-232 *)
  Definition same_y (a b : k3) : bool := Nat.eqb (snd (fst a)) (snd (fst b)).
  (** hist2d.py 163-232 on a table with both legs: every group spans all the legs in the table *)
  Definition leg_normalizer (logx logy : bool) (norm : axnorm2) (bx by_ : list T) (t : list (k3 * T)) : list (k3 * T) :=
    let dx i := let d := width bx i in if logx then exp10 d else d in
    let dy j := let d := width by_ j in if logy then exp10 d else d in
    match norm with
    | N2None => t
    | N2Col => divide_by k3 (fun k => series_max (some_entries (same_x k) t)) t
    | N2Row => divide_by k3 (fun k => series_max (some_entries (same_y k) t)) t
    | N2Total => divide_by k3 (fun _ => series_max (values k3 t)) t
    | N2Density => divide_by k3 (fun _ => sum_skip (values k3 t)) (divide_by k3 (fun k => dy (snd (fst k))) (divide_by k3 (fun k => dx (fst (fst k))) t))
    | N2ColDensity => divide_by k3 (fun k => width by_ (snd (fst k))) (divide_by k3 (fun k => sum_skip (some_entries (same_x k) t)) t)
    | N2RowDensity => divide_by k3 (fun k => width bx (fst (fst k))) (divide_by k3 (fun k => sum_skip (some_entries (same_y k) t)) t)
    end.
  (** ditto: hist2d.py 163-232 *)
  Definition leg_part (l : leg) (t : list (k3 * T)) : list (k3 * T) := filter (fun kv => leg_eqb (snd (fst kv)) l) t.
  (** 180-207 [OrbitHist2D.agg]: hist2d.py 234-249 normalises (and applies alim) over both legs; then each leg is
      normalised again *)
  Definition orbit_agg2 (logx logy : bool) (norm : axnorm2) (clim alim : option T * option T) (bx by_ : list T) (f : fcn)
      (data : list (T * T * T)) (ls : list (option leg)) : list (k3 * T) :=
    let t := leg_normalizer logx logy norm bx by_ (leg_table k2 k2_eqb (bins2 bx by_) clim f (rows2 bx by_ data) ls) in
    let t := map (fun kv => (fst kv, if within alim (snd kv) then snd kv else anan)) t in
    flat_map (fun l => leg_normalizer logx logy norm bx by_ (leg_part l t)) [Inbound; Outbound].
  (** ditto: hist2d.py 234-249 *)
  Definition orbit_value (t : list (k3 * T)) (i j : nat) (l : leg) : T := leg_value k2 k2_eqb t (i, j) l.
End Tables.

(* ------------------------------------------------------------------ drawing *)
(** plotting/orbits.py 332-341: the kind of plot by its first letter *)
Definition plot_kind (kind : string) : result leg :=
  match lower kind with
  | EmptyString => Err IndexError
  | String c _ => if Ascii.eqb c "i" then Ok Inbound else if Ascii.eqb c "o" then Ok Outbound
                  else if Ascii.eqb c "b" then Err NotImplementedError else Err ValueError
  end.
(** hist2d.py 251-256, 258-270 and 284-285: [limit_color_norm] with a norm of the caller or the default one. Orbit plots
    have a default norm for 'c' and 'r' only (281); elsewhere limiting the default fails on None. *)
Definition limits_ok (norm : axnorm2) (given limit : bool) : bool :=
  negb limit || given || match norm with N2Col | N2Row => true | _ => false end.
(** plotting/orbits.py 265-300 [_put_agg_on_ax]: the axes are passed as a second positional argument, which [_make_cbar] does not take *)
Definition put_on_ax (norm : axnorm2) (given limit cbar : bool) : result unit :=
  if negb (limits_ok norm given limit) then Err AttributeError else if cbar then Err TypeError else Ok tt.
(** plotting/orbits.py 302-351 [make_one_plot] *)
Definition make_one_plot (norm : axnorm2) (kind : string) (given limit cbar : bool) : result leg :=
  bind (plot_kind kind) (fun l => bind (put_on_ax norm given limit cbar) (fun _ => Ok l)).
(** plotting/orbits.py 353-388 [make_in_out_plot]: no colour bar on the first axes *)
Definition make_in_out_plot (norm : axnorm2) (given limit cbar : bool) : result (list leg) :=
  bind (put_on_ax norm given limit false) (fun _ => bind (put_on_ax norm given limit cbar) (fun _ => Ok [Inbound; Outbound])).
(** plotting/orbits.py 390-441 [make_in_out_both_plot] is switched off *)
Definition make_in_out_both_plot : result (list leg) := Err NotImplementedError.
(** plotting/orbits.py 140-145: the limits set on the two axes *)
Definition in_out_limits (a b : Z * Z) : (Z * Z) * (Z * Z) :=
  let x0 := Z.min (Z.min (fst a) (snd a)) (Z.min (fst b) (snd b)) in
  let x1 := Z.max (Z.max (fst a) (snd a)) (Z.max (fst b) (snd b)) in ((x1, x0), (x0, x1)).
