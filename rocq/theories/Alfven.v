(** AlfvenicTurbulence (core/alfvenic_turbulence.py): the fluctuations and the quantities of a row. *)
From Coq Require Import List String Bool Arith ZArith.
From Verif Require Import Py PyStr Num Species Frame Plasma.
Import ListNotations.
Open Scope list_scope.

Section Alfven.
  Context {T : Type} {A : Arith T}.
  Local Open Scope num_scope.

  (* ---------------------------------------------------------------- rolling mean *)
  (** core/alfvenic_turbulence.py 423-424: [data.rolling(window, min_periods).agg("mean")] for a time
      window of length [w] (default closed='right') on an increasing index: the mean of the finite values
      (pandas drops NaN and infinities) of the rows up to and including this one whose time is after
      [t - w]; NaN if there are fewer than [min_periods] of them, or none.
      Simplification: pandas computes the mean by running updates; here it is the plain mean. *)
  Definition window_values (w t : Z) (rows : list (Z * T)) : list T :=
    filter aisfin (map snd (filter (fun zr => Z.ltb (t - w) (fst zr)) rows)).
  (** ditto: core/alfvenic_turbulence.py 423-424 *)
  Definition mean_min (min_periods : nat) (l : list T) : T :=
    if Nat.leb min_periods (List.length l) && Nat.leb 1 (List.length l)
    then sum_strict l / aofZ (Z.of_nat (List.length l)) else anan.
  (** [seen] are the rows up to and including the current one. core/alfvenic_turbulence.py 383-424 *)
  Fixpoint rolling_from (w : Z) (min_periods : nat) (seen rows : list (Z * T)) : list T :=
    match rows with
    | [] => []
    | (t, x) :: r =>
        let seen' := seen ++ [(t, x)] in
        mean_min min_periods (window_values w t seen') :: rolling_from w min_periods seen' r
    end.
  (** ditto: core/alfvenic_turbulence.py 423-424 *)
  Definition rolling_mean (w : Z) (min_periods : nat) (rows : list (Z * T)) : list T :=
    rolling_from w min_periods [] rows.
  (** core/alfvenic_turbulence.py 425: [data.subtract(agged)] for one column *)
  Fixpoint sub_list (a b : list T) : list T :=
    match a, b with x :: a', y :: b' => (x - y) :: sub_list a' b' | _, _ => [] end.
  (** ditto: core/alfvenic_turbulence.py 425 *)
  Definition deltas (w : Z) (min_periods : nat) (rows : list (Z * T)) : list T :=
    sub_list (map snd rows) (rolling_mean w min_periods rows).

  (** core/alfvenic_turbulence.py 336-339: the field in Alfven units *)
  Definition alfven_units (coef rho b : T) : T := (b / asqrt rho) * coef.

  (* ---------------------------------------------------------------- quantities of a row *)
  (** The velocity fluctuation, the field fluctuation and the polarity of a row (None unless
      [raffaella_version]). core/alfvenic_turbulence.py 91-145, 400-434 *)
  Record arow := mkARow { a_v : vec T; a_b : vec T; a_pol : option T }.

  (** core/alfvenic_turbulence.py 118-129 [bfield] *)
  Definition al_b (r : arow) : vec T :=
    match a_pol r with
    | None => a_b r
    | Some p => vbuild (fun i => vcomp i (a_b r) * p)
    end.
  (** core/alfvenic_turbulence.py 149-169 [z_plus], [z_minus] *)
  Definition zplus (r : arow) : vec T := vbuild (fun i => vcomp i (a_v r) + vcomp i (al_b r)).
  (** ditto: core/alfvenic_turbulence.py 149-169 *)
  Definition zminus (r : arow) : vec T := vbuild (fun i => vcomp i (a_v r) - vcomp i (al_b r)).
  (** core/alfvenic_turbulence.py 171-215 *)
  Definition half : T := aofQ 1 2.
  (** [0.5 * x.pow(2).sum(axis=1)], NaN skipped. core/alfvenic_turbulence.py 171-215 *)
  Definition energy (v : vec T) : T := half * sumsq_skip v.
  (** core/alfvenic_turbulence.py 171-191, 193-215 *)
  Definition e_plus (r : arow) : T := energy (zplus r).
  (** ditto: core/alfvenic_turbulence.py 171-191, 193-215 *)
  Definition e_minus (r : arow) : T := energy (zminus r).
  (** ditto: core/alfvenic_turbulence.py 171-191, 193-215 *)
  Definition e_v (r : arow) : T := energy (a_v r).
  (** ditto: core/alfvenic_turbulence.py 171-191, 193-215 *)
  Definition e_b (r : arow) : T := energy (al_b r).
  (** core/alfvenic_turbulence.py 217-250 *)
  Definition e_tot (r : arow) : T := e_v r + e_b r.
  (** ditto: core/alfvenic_turbulence.py 217-250 *)
  Definition e_res (r : arow) : T := e_v r - e_b r.
  (** ditto: core/alfvenic_turbulence.py 217-250 *)
  Definition sigma_r (r : arow) : T := e_res r / e_tot r.
  (** core/alfvenic_turbulence.py 252-258 *)
  Definition cross_helicity (r : arow) : T := half * vdot_skip (a_v r) (al_b r).
  (** core/alfvenic_turbulence.py 260-273 *)
  Definition sigma_c (r : arow) : T := (e_plus r - e_minus r) / (e_plus r + e_minus r).
  (** core/alfvenic_turbulence.py 275-293 *)
  Definition alfven_ratio (r : arow) : T := e_v r / e_b r.
  (** ditto: core/alfvenic_turbulence.py 275-293 *)
  Definition elsasser_ratio (r : arow) : T := e_minus r / e_plus r.

  (** core/alfvenic_turbulence.py 383-385: Raffaella's axes; 412-418: the polarity, from the measured (not fluctuating) v and b. *)
  Definition rtn_axes (v : vec T) : vec T := let '(x, y, z) := v in (x * aofZ (-1), y * aofZ (-1), z * aofZ 1).
  (** [np.sign]. core/alfvenic_turbulence.py 295-434 [set_data] *)
  Definition asign (x : T) : T :=
    if aisnan x then anan else if altb a0 x then aofZ 1 else if altb x a0 then aofZ (-1) else a0.
  (** ditto: core/alfvenic_turbulence.py 383-385 *)
  Definition polarity (v b : vec T) : T :=
    asign (sum_skip [vcomp 0 v * vcomp 0 b; vcomp 1 v * vcomp 1 b]).
End Alfven.

Section AlfvenTable.
  Context {T : Type} {A : Arith T}.
  (** A table of a time index and three columns. core/alfvenic_turbulence.py 295-434 [set_data] *)
  Definition col (i : nat) (rows : list (Z * vec T)) : list (Z * T) := map (fun zr => (fst zr, vcomp i (snd zr))) rows.
  (** core/alfvenic_turbulence.py 295-434 [set_data] *)
  Definition vec_deltas (w : Z) (mp : nat) (rows : list (Z * vec T)) : list (vec T) :=
    map (fun xyz => xyz) (combine (combine (deltas w mp (col 0 rows)) (deltas w mp (col 1 rows))) (deltas w mp (col 2 rows))).
  (** core/alfvenic_turbulence.py 295-434 [set_data] *)
  Fixpoint zip_arows (v b : list (vec T)) : list (arow (T := T)) :=
    match v, b with
    | x :: v', y :: b' => {| a_v := x; a_b := y; a_pol := None |} :: zip_arows v' b'
    | _, _ => []
    end.
  (** core/alfvenic_turbulence.py 295-434 [set_data] *)
  Fixpoint sorted_index (l : list Z) : bool :=
    match l with x :: ((y :: _) as r) => Z.leb x y && sorted_index r | _ => true end.
  (** core/alfvenic_turbulence.py 295-434 [set_data] without [raffaella_version], for v, b, rho on the same
      index (the code only warns otherwise): the rows whose quantities the object reports. A rolling time
      window on an index that is not monotonic is a ValueError (a decreasing one, which pandas accepts, is not modelled). *)
  Definition alfven_rows (index_is_time : bool) (coef : T) (w : Z) (mp : nat)
             (rows : list (Z * (vec T * vec T * T))) : result (list (arow (T := T))) :=
    if negb index_is_time then Err TypeError                                  (* 316-321 *)
    else if negb (sorted_index (map fst rows)) then Err ValueError            (* rolling *)
    else
      let v := map (fun zr => (fst zr, fst (fst (snd zr)))) rows in
      let b := map (fun zr => (fst zr, vbuild (fun i => alfven_units coef (snd (snd zr)) (vcomp i (snd (fst (snd zr))))))) rows in
      Ok (zip_arows (vec_deltas w mp v) (vec_deltas w mp b)).

  (* ---------------------------------------------------------------- raffaella_version *)
  (** core/alfvenic_turbulence.py 387-409: the corotation speed omega r cos(colatitude) [km/s]. [d2s] is [sc_vector.distance2sun] [m], [pos] its position in the
      spacecraft's own frame and units. *)
  Definition omega_sun : T := aofQ 2865 1000000000.
  (** ditto: core/alfvenic_turbulence.py 387-409 *)
  Definition corotation (d2s : T) (pos : vec T) : T :=
    let '(x, y, z) := pos in
    let r_rtn := asqrt (sum_strict [asq x; asq y; asq z]) in
    let rho_rtn := asqrt (sum_strict [asq x; asq y]) in
    ((((d2s * aofZ 1) * aofQ 1 1000) * (rho_rtn / r_rtn)) * omega_sun)%num.
  (** core/alfvenic_turbulence.py 383-410: axes turned, then the corotation speed taken off the second component of v *)
  Definition raf_v (v : vec T) (d2s : T) (pos : vec T) : vec T :=
    let '(x, y, z) := rtn_axes v in (x, asub y (corotation d2s pos), z).
  (** ditto: core/alfvenic_turbulence.py 383-410 *)
  Fixpoint zip_pol (rows : list (arow (T := T))) (pol : list T) : list (arow (T := T)) :=
    match rows, pol with
    | r :: rows', p :: pol' => {| a_v := a_v r; a_b := a_b r; a_pol := Some p |} :: zip_pol rows' pol'
    | _, _ => []
    end.
  (** core/alfvenic_turbulence.py 295-434 [set_data] with [raffaella_version]; [sc] gives distance and position of the spacecraft at each row. *)
  Definition alfven_rows_raf (index_is_time : bool) (coef : T) (w : Z) (mp : nat) (sc : option (list (T * vec T)))
             (rows : list (Z * (vec T * vec T * T))) : result (list (arow (T := T))) :=
    if negb index_is_time then Err TypeError
    else match sc with
         | None => Err ValueError                                             (* 374-377 *)
         | Some places =>
             if negb (sorted_index (map fst rows)) then Err ValueError
             else
               let v := map (fun p => (fst (fst p), raf_v (fst (fst (snd (fst p)))) (fst (snd p)) (snd (snd p)))) (combine rows places) in
               let b := map (fun p => (fst (fst p), rtn_axes (vbuild (fun i => alfven_units coef (snd (snd (fst p))) (vcomp i (snd (fst (snd (fst p)))))))))
                            (combine rows places) in
               let pol := map (fun p => polarity (snd (fst p)) (snd (snd p))) (combine v b) in
               Ok (zip_pol (zip_arows (vec_deltas w mp v) (vec_deltas w mp b)) pol)
         end.
End AlfvenTable.
