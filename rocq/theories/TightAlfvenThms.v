(** C137 (what an AlfvenicTurbulence object is built from) and C138 (the raffaella_version). *)
From Coq Require Import List String Bool Arith ZArith Reals Lra Lia Psatz.
From Verif Require Import Py PyStr Num Species Frame Plasma PlasmaProofs Spacecraft Vector VectorThms Alfven AlfvenThms.
Import ListNotations.
Open Scope R_scope.

(* ------------------------------------------------------------------ specification *)
(** A vector or number of the input table: each entry a number or missing. *)
Definition ovec : Type := option R * option R * option R.
Definition part (c : nat) (v : ovec) : option R := let '(x, y, z) := v in match c with 0%nat => x | 1%nat => y | _ => z end.
Definition xvec (v : ovec) : vec XR := (cell (part 0 v), cell (part 1 v), cell (part 2 v)).
(** The field in Alfven units: b / sqrt(rho) times the unit factor. *)
Definition in_alfven_units (coef : R) (rho : option R) (b : option R) : option R :=
  match b, rho with Some x, Some d => Some (x / sqrt d * coef) | _, _ => None end.
(** The i-th fluctuation of a column l, at time t with value o (C92). *)
Definition fluctuation (w : Z) (mp : nat) (l : list (Z * option R)) (i : nat) (t : Z) (o : option R) : XR :=
  match o with
  | Some x => if Nat.leb mp (List.length (in_window w l i t)) && Nat.leb 1 (List.length (in_window w l i t)) then Fin (x - mean (in_window w l i t)) else NaN
  | None => NaN
  end.
Definition table : Type := list (Z * (ovec * ovec * option R)).
Definition in_order (ts : list Z) : Prop := forall i j a b, (i <= j)%nat -> nth_error ts i = Some a -> nth_error ts j = Some b -> (a <= b)%Z.
Definition enc (l : table) : list (Z * (vec XR * vec XR * XR)) := map (fun r => (fst r, (xvec (fst (fst (snd r))), xvec (snd (fst (snd r))), cell (snd (snd r))))) l.
Definition v_column (c : nat) (l : table) : list (Z * option R) := map (fun r => (fst r, part c (fst (fst (snd r))))) l.
Definition b_column (coef : R) (c : nat) (l : table) : list (Z * option R) := map (fun r => (fst r, in_alfven_units coef (snd (snd r)) (part c (snd (fst (snd r)))))) l.
Definition dense (l : table) : Prop := forall r d, In r l -> snd (snd r) = Some d -> 0 < d.

(* ------------------------------------------------------------------ lemmas *)
Lemma sorted_index_spec ts : sorted_index ts = true <-> in_order ts.
Proof.
  induction ts as [|a ts IH]; [split; [intros _ [|i] j x y _ E; discriminate|reflexivity]|]. destruct ts as [|b ts].
  - split; [|reflexivity]. intros _ i j x y L E1 E2. destruct i as [|[|i]]; [|discriminate|discriminate]. destruct j as [|[|j]]; [|discriminate|discriminate]. cbn in *. injection E1 as <-. injection E2 as <-. lia.
  - change (sorted_index (a :: b :: ts)) with (Z.leb a b && sorted_index (b :: ts)). rewrite andb_true_iff, IH, Z.leb_le. split.
    + intros [L H] [|i] [|j] x y Lij E1 E2.
      * cbn in E1, E2. injection E1 as <-. injection E2 as <-. lia.
      * cbn in E1. injection E1 as <-. assert (b <= y)%Z by (apply (H 0%nat j b y); [lia|reflexivity|exact E2]). lia.
      * lia.
      * apply (H i j x y); [lia|exact E1|exact E2].
    + intro H. split; [apply (H 0%nat 1%nat a b); [lia|reflexivity|reflexivity]|]. intros i j x y L E1 E2. apply (H (S i) (S j) x y); [lia|exact E1|exact E2].
Qed.
Lemma combine_nth {A B} (a : list A) (b : list B) i x y : nth_error a i = Some x -> nth_error b i = Some y -> nth_error (combine a b) i = Some (x, y).
Proof. revert b i. induction a as [|u a IH]; intros [|v b] [|i] H1 H2; try discriminate; cbn in *; [congruence|apply IH; assumption]. Qed.
Lemma zip_nth v b i x y : nth_error v i = Some x -> nth_error b i = Some y -> nth_error (zip_arows (T := XR) v b) i = Some {| a_v := x; a_b := y; a_pol := None |}.
Proof. revert b i. induction v as [|u v IH]; intros [|c b] [|i] H1 H2; try discriminate; cbn in *; [congruence|apply IH; assumption]. Qed.
Lemma zip_length v b : List.length (zip_arows (T := XR) v b) = Nat.min (List.length v) (List.length b).
Proof. revert b. induction v as [|u v IH]; intros [|c b]; cbn; try reflexivity. rewrite IH. reflexivity. Qed.
Lemma vec_deltas_length w mp (l : list (Z * vec XR)) : List.length (vec_deltas w mp l) = List.length l.
Proof.
  unfold vec_deltas. rewrite map_length. transitivity (Nat.min (Nat.min (List.length (deltas w mp (col 0 l))) (List.length (deltas w mp (col 1 l)))) (List.length (deltas w mp (col 2 l)))).
  - rewrite <- !combine_length. reflexivity.
  - rewrite !C92_one_fluctuation_per_row. unfold col. rewrite !map_length. lia.
Qed.
Definition fvec (l : list (Z * ovec)) : list (Z * vec XR) := map (fun r => (fst r, xvec (snd r))) l.
Definition ocol (c : nat) (l : list (Z * ovec)) : list (Z * option R) := map (fun r => (fst r, part c (snd r))) l.
Lemma col_fvec c l : col c (fvec l) = column (ocol c l).
Proof.
  unfold col, fvec, column, ocol. rewrite !map_map. apply map_ext. intros [t v]. cbn [fst snd]. f_equal. destruct v as [[x y] z]. destruct c as [|[|c]]; reflexivity.
Qed.
Lemma vec_deltas_nth w mp l i t v : nth_error l i = Some (t, v) ->
  nth_error (vec_deltas w mp (fvec l)) i = Some (fluctuation w mp (ocol 0 l) i t (part 0 v), fluctuation w mp (ocol 1 l) i t (part 1 v), fluctuation w mp (ocol 2 l) i t (part 2 v)).
Proof.
  intro E. assert (K : forall c, nth_error (deltas w mp (col c (fvec l))) i = Some (fluctuation w mp (ocol c l) i t (part c v))).
  { intro c. rewrite col_fvec. apply C92_fluctuation_is_value_minus_window_mean. unfold ocol. rewrite nth_error_map, E. reflexivity. }
  unfold vec_deltas. rewrite map_id. apply combine_nth; [apply combine_nth|]; apply K.
Qed.
Lemma units_cell coef rho b : (forall d, rho = Some d -> 0 < d) -> alfven_units (Fin coef) (cell rho) (cell b) = cell (in_alfven_units coef rho b).
Proof.
  intro P. unfold alfven_units, in_alfven_units. destruct b as [x|], rho as [d|]; cbn [cell].
  - specialize (P d eq_refl). rewrite fin_sqrt by lra. rewrite fin_div by (apply Rgt_not_eq, sqrt_lt_R0, P). apply fin_mul.
  - change (asqrt (NaN : XR)) with NaN. reflexivity.
  - reflexivity.
  - reflexivity.
Qed.

(* ------------------------------------------------------------------ C137 *)
(** With a time index in order and positive densities, row i of the object holds the fluctuations of each velocity component and of each
    field component in Alfven units about the means of their windows. *)
Theorem C137_alfven_object : forall coef w mp (l : table), in_order (map fst l) -> dense l ->
  exists out, alfven_rows true (Fin coef) w mp (enc l) = Ok out /\ List.length out = List.length l
    /\ forall i t v b rho, nth_error l i = Some (t, (v, b, rho)) -> exists r, nth_error out i = Some r /\ a_pol r = None
       /\ forall c, (c < 3)%nat ->
            vcomp c (a_v r) = fluctuation w mp (v_column c l) i t (part c v)
            /\ vcomp c (a_b r) = fluctuation w mp (b_column coef c l) i t (in_alfven_units coef rho (part c b)).
Proof.
  intros coef w mp l O D. unfold alfven_rows. cbn [negb]. assert (M : map fst (enc l) = map fst l) by (unfold enc; rewrite map_map; reflexivity).
  rewrite M, (proj2 (sorted_index_spec _) O). cbn [negb]. cbv zeta.
  set (vl := map (fun r => (fst r, fst (fst (snd r)))) l : list (Z * ovec)).
  set (bl := map (fun r => (fst r, (in_alfven_units coef (snd (snd r)) (part 0 (snd (fst (snd r)))), in_alfven_units coef (snd (snd r)) (part 1 (snd (fst (snd r)))), in_alfven_units coef (snd (snd r)) (part 2 (snd (fst (snd r))))))) l : list (Z * ovec)).
  assert (EV : map (fun zr : Z * (vec XR * vec XR * XR) => (fst zr, fst (fst (snd zr)))) (enc l) = fvec vl) by (unfold enc, vl, fvec; rewrite !map_map; reflexivity).
  assert (EB : map (fun zr : Z * (vec XR * vec XR * XR) => (fst zr, vbuild (fun i => alfven_units (Fin coef) (snd (snd zr)) (vcomp i (snd (fst (snd zr))))))) (enc l) = fvec bl).
  { unfold enc, bl, fvec. rewrite !map_map. apply map_ext_in. intros [t [[v b] rho]] I. cbn [fst snd]. f_equal. unfold vbuild, xvec. cbn [vcomp part].
    assert (P : forall d, rho = Some d -> 0 < d) by (intros d E; apply (D _ d I); exact E). rewrite <- !units_cell by exact P. reflexivity. }
  rewrite EV, EB. eexists. split; [reflexivity|]. split.
  - rewrite zip_length, !vec_deltas_length. unfold fvec, vl, bl. rewrite !map_length. lia.
  - intros i t v b rho E.
    assert (E1 : nth_error vl i = Some (t, v)) by (unfold vl; rewrite nth_error_map, E; reflexivity).
    assert (E2 : nth_error bl i = Some (t, (in_alfven_units coef rho (part 0 b), in_alfven_units coef rho (part 1 b), in_alfven_units coef rho (part 2 b)))) by (unfold bl; rewrite nth_error_map, E; reflexivity).
    eexists. split; [apply zip_nth; [apply (vec_deltas_nth w mp vl i t v E1)|apply (vec_deltas_nth w mp bl i t _ E2)]|]. split; [reflexivity|].
    assert (C1 : forall c, ocol c vl = v_column c l) by (intro c; unfold ocol, vl, v_column; rewrite map_map; reflexivity).
    assert (C2 : forall c, (c < 3)%nat -> ocol c bl = b_column coef c l).
    { intros c Lc. unfold ocol, bl, b_column. rewrite map_map. apply map_ext. intros [t' [[v' b'] rho']]. cbn [fst snd]. f_equal. destruct c as [|[|[|c]]]; [reflexivity|reflexivity|reflexivity|lia]. }
    intros c Lc. rewrite <- (C1 c), <- (C2 c Lc). cbn [a_v a_b]. destruct c as [|[|[|c]]]; [split; reflexivity|split; reflexivity|split; reflexivity|lia].
Qed.
(** Anything but a time index is a TypeError; times out of order are a ValueError. *)
Theorem C137_refusals : forall (coef : XR) w mp rows,
  alfven_rows false coef w mp rows = Err TypeError /\ (~ in_order (map fst rows) -> alfven_rows true coef w mp rows = Err ValueError).
Proof.
  intros coef w mp rows. split; [reflexivity|]. intro N. unfold alfven_rows. cbn [negb]. destruct (sorted_index (map fst rows)) eqn:E; [|reflexivity]. exfalso. apply N, sorted_index_spec, E.
Qed.
Example C137_ex : let l : table := [(0%Z, ((Some 1, None, Some 3), (Some 1, Some 2, Some 3), Some 4)); (60%Z, ((Some 2, Some 2, Some 2), (Some 0, Some 0, Some 0), Some 1))] in
  in_order (map fst l) /\ dense l.
Proof.
  split; [apply sorted_index_spec; reflexivity|]. intros r d [<-|[<-|[]]] E; cbn in E; injection E as <-; lra.
Qed.

(* ------------------------------------------------------------------ C138 *)
(** With [raffaella_version]: radial and tangential axes reversed, the corotation speed k taken off the tangential velocity; the polarity is
    the sign of v_R b_R + v_T b_T of the measurements, a missing product counting as nothing. *)
Definition onum (f : R -> R) (o : option R) : option R := option_map f o.
Definition turned_v (k : R) (v : ovec) : ovec := (onum Ropp (part 0 v), onum (fun y => - y - k) (part 1 v), part 2 v).
Definition turned_b (b : ovec) : ovec := (onum Ropp (part 0 b), onum Ropp (part 1 b), part 2 b).
Definition alfven_b (coef : R) (rho : option R) (b : ovec) : ovec := (in_alfven_units coef rho (part 0 b), in_alfven_units coef rho (part 1 b), in_alfven_units coef rho (part 2 b)).
Definition oprod (a b : option R) : R := match a, b with Some x, Some y => x * y | _, _ => 0 end.
Definition outward (v b : ovec) : R := oprod (part 0 v) (part 0 b) + oprod (part 1 v) (part 1 b).
Definition sign_is (x s : R) : Prop := (0 < x /\ s = 1) \/ (x < 0 /\ s = -1) \/ (x = 0 /\ s = 0).

Lemma rtn_xvec b : rtn_axes (xvec b) = xvec (turned_b b).
Proof.
  destruct b as [[x y] z]. unfold rtn_axes, xvec, turned_b. cbn [part]. rewrite !fin_ofZ.
  assert (K : forall o, amul (cell o) (Fin (-1)) = cell (onum Ropp o)) by (intros [r|]; [cbn; rewrite fin_mul; f_equal; ring|reflexivity]).
  assert (K1 : forall o, amul (cell o) (Fin 1) = cell o) by (intros [r|]; [cbn; rewrite fin_mul; f_equal; ring|reflexivity]). rewrite !K, K1. reflexivity.
Qed.
Lemma raf_xvec v d pos k : corotation d pos = Fin k -> raf_v (xvec v) d pos = xvec (turned_v k v).
Proof.
  intro E. unfold raf_v. rewrite rtn_xvec, E. destruct v as [[x y] z]. unfold turned_b, turned_v, xvec. cbn [part]. f_equal. f_equal. destruct y as [y|]; [cbn; rewrite fin_sub; reflexivity|reflexivity].
Qed.
Lemma polarity_sign v b : exists s, polarity (xvec v) (xvec b) = Fin s /\ sign_is (outward v b) s.
Proof.
  unfold polarity, outward. assert (K : forall a c : option R, amul (cell a) (cell c) = Fin (oprod a c) \/ amul (cell a) (cell c) = NaN /\ oprod a c = 0).
  { intros [x|] [y|]; [left; apply fin_mul|right; split; [apply nan_mul_r|reflexivity]|right; split; [apply nan_mul_l|reflexivity]|right; split; [apply nan_mul_l|reflexivity]]. }
  assert (E : sum_skip [amul (vcomp 0 (xvec v)) (vcomp 0 (xvec b)); amul (vcomp 1 (xvec v)) (vcomp 1 (xvec b))] = Fin (oprod (part 0 v) (part 0 b) + oprod (part 1 v) (part 1 b))).
  { change (vcomp 0 (xvec v)) with (cell (part 0 v)). change (vcomp 0 (xvec b)) with (cell (part 0 b)). change (vcomp 1 (xvec v)) with (cell (part 1 v)). change (vcomp 1 (xvec b)) with (cell (part 1 b)).
    unfold sum_skip. cbn [fold_left]. destruct (K (part 0 v) (part 0 b)) as [-> |[-> ->]]; destruct (K (part 1 v) (part 1 b)) as [-> |[-> ->]]; rewrite ?fin_isnan; change (aisnan NaN) with true; cbv iota; rewrite fin_a0, ?fin_add; f_equal; ring. }
  rewrite E. set (q := oprod (part 0 v) (part 0 b) + oprod (part 1 v) (part 1 b)). unfold asign. rewrite fin_isnan, fin_a0, !fin_ltb.
  destruct (Rltb 0 q) eqn:P; [apply Rltb_true in P; rewrite fin_ofZ; exists 1; split; [reflexivity|left; auto]|]. destruct (Rltb q 0) eqn:N; [apply Rltb_true in N; rewrite fin_ofZ; exists (-1); split; [reflexivity|right; left; auto]|].
  apply Rltb_false in P. apply Rltb_false in N. exists 0. split; [reflexivity|]. right. right. split; [lra|reflexivity].
Qed.
Lemma zip_pol_nth rows pol i r p : nth_error rows i = Some r -> nth_error pol i = Some p -> nth_error (zip_pol (T := XR) rows pol) i = Some {| a_v := a_v r; a_b := a_b r; a_pol := Some p |}.
Proof. revert pol i. induction rows as [|u rows IH]; intros [|q pol] [|i] H1 H2; try discriminate; cbn in *; [congruence|apply IH; assumption]. Qed.
Lemma zip_pol_length rows pol : List.length (zip_pol (T := XR) rows pol) = Nat.min (List.length rows) (List.length pol).
Proof. revert pol. induction rows as [|u v IH]; intros [|c b]; cbn; try reflexivity. rewrite IH. reflexivity. Qed.
(** the table seen from the Sun: the turned columns, with the corotation speeds ks *)
Definition rv_column (ks : list R) (c : nat) (l : table) : list (Z * option R) := map (fun p => (fst (fst p), part c (turned_v (snd p) (fst (fst (snd (fst p))))))) (combine l ks).
Definition rb_column (coef : R) (c : nat) (l : table) : list (Z * option R) := map (fun r => (fst r, part c (turned_b (alfven_b coef (snd (snd r)) (snd (fst (snd r))))))) l.
Theorem C138_polarised_object : forall coef w mp (l : table) (places : list (XR * vec XR)) (ks : list R), in_order (map fst l) -> dense l -> List.length places = List.length l ->
  Forall2 (fun p k => corotation (fst p) (snd p) = Fin k) places ks ->
  exists out, alfven_rows_raf true (Fin coef) w mp (Some places) (enc l) = Ok out /\ List.length out = List.length l
    /\ forall i t v b rho k, nth_error l i = Some (t, (v, b, rho)) -> nth_error ks i = Some k -> exists r s, nth_error out i = Some r /\ a_pol r = Some (Fin s)
       /\ sign_is (outward (turned_v k v) (turned_b (alfven_b coef rho b))) s
       /\ forall c, (c < 3)%nat ->
            vcomp c (a_v r) = fluctuation w mp (rv_column ks c l) i t (part c (turned_v k v))
            /\ vcomp c (a_b r) = fluctuation w mp (rb_column coef c l) i t (part c (turned_b (alfven_b coef rho b))).
Proof.
  intros coef w mp l places ks O D LP FK. unfold alfven_rows_raf. cbn [negb]. assert (M : map fst (enc l) = map fst l) by (unfold enc; rewrite map_map; reflexivity).
  rewrite M, (proj2 (sorted_index_spec _) O). cbn [negb]. cbv zeta.
  assert (LK : List.length ks = List.length l) by (rewrite <- LP; symmetry; clear - FK; induction FK; cbn; congruence).
  set (vl := map (fun p => (fst (fst p), turned_v (snd p) (fst (fst (snd (fst p)))))) (combine l ks) : list (Z * ovec)).
  set (bl := map (fun r => (fst r, turned_b (alfven_b coef (snd (snd r)) (snd (fst (snd r)))))) l : list (Z * ovec)).
  assert (EV : map (fun p : (Z * (vec XR * vec XR * XR)) * (XR * vec XR) => (fst (fst p), raf_v (fst (fst (snd (fst p)))) (fst (snd p)) (snd (snd p)))) (combine (enc l) places) = fvec vl).
  { unfold vl, fvec. clear - FK LP. revert places ks FK LP. induction l as [|[t [[v b] rho]] l IH]; intros places ks FK LP; [reflexivity|]. destruct places as [|p places]; [discriminate|].
    destruct ks as [|k ks]; [inversion FK|]. assert (C : corotation (fst p) (snd p) = Fin k) by (inversion FK; assumption). assert (FK' : Forall2 (fun p k => corotation (fst p) (snd p) = Fin k) places ks) by (inversion FK; assumption).
    cbn [enc map combine fst snd]. f_equal; [f_equal; apply raf_xvec, C|]. apply IH; [exact FK'|cbn in LP; lia]. }
  assert (EB : map (fun p : (Z * (vec XR * vec XR * XR)) * (XR * vec XR) => (fst (fst p), rtn_axes (vbuild (fun i => alfven_units (Fin coef) (snd (snd (fst p))) (vcomp i (snd (fst (snd (fst p))))))))) (combine (enc l) places) = fvec bl).
  { unfold bl, fvec. assert (D' : forall r d, In r l -> snd (snd r) = Some d -> 0 < d) by exact D. clear - D' LP. revert places LP. induction l as [|[t [[v b] rho]] l IH]; intros places LP; [reflexivity|].
    destruct places as [|p places]; [discriminate|]. cbn [enc map combine fst snd]. f_equal.
    - f_equal. rewrite <- rtn_xvec. f_equal. unfold vbuild, xvec, alfven_b. cbn [vcomp part].
      assert (P : forall d, rho = Some d -> 0 < d) by (intros d E; apply (D' _ d (or_introl eq_refl)); exact E). rewrite <- !units_cell by exact P. reflexivity.
    - apply IH; [intros r d I E; apply (D' r d (or_intror I) E)|cbn in LP; lia]. }
  rewrite EV, EB. eexists. split; [reflexivity|].
  assert (LV : List.length (fvec vl) = List.length l) by (unfold fvec, vl; rewrite !map_length, combine_length, LK; lia).
  assert (LB : List.length (fvec bl) = List.length l) by (unfold fvec, bl; rewrite !map_length; reflexivity).
  split.
  - rewrite zip_pol_length, zip_length, !vec_deltas_length, map_length, combine_length, LV, LB. lia.
  - intros i t v b rho k E EK.
    assert (E1 : nth_error vl i = Some (t, turned_v k v)) by (unfold vl; rewrite nth_error_map, (combine_nth l ks i _ _ E EK); reflexivity).
    assert (E2 : nth_error bl i = Some (t, turned_b (alfven_b coef rho b))) by (unfold bl; rewrite nth_error_map, E; reflexivity).
    destruct (polarity_sign (turned_v k v) (turned_b (alfven_b coef rho b))) as [s [Es Ss]].
    eexists. exists s. split; [apply zip_pol_nth; [apply zip_nth; [apply (vec_deltas_nth w mp vl i t _ E1)|apply (vec_deltas_nth w mp bl i t _ E2)]|]|].
    { rewrite nth_error_map, (combine_nth (fvec vl) (fvec bl) i (t, xvec (turned_v k v)) (t, xvec (turned_b (alfven_b coef rho b)))); [reflexivity|unfold fvec; rewrite nth_error_map, E1; reflexivity|unfold fvec; rewrite nth_error_map, E2; reflexivity]. }
    split; [cbn [a_pol fst snd]; rewrite Es; reflexivity|]. split; [exact Ss|].
    assert (C1 : forall c, ocol c vl = rv_column ks c l) by (intro c; unfold ocol, vl, rv_column; rewrite map_map; reflexivity).
    assert (C2 : forall c, ocol c bl = rb_column coef c l) by (intro c; unfold ocol, bl, rb_column; rewrite map_map; reflexivity).
    intros c Lc. rewrite <- (C1 c), <- (C2 c). cbn [a_v a_b]. destruct c as [|[|[|c]]]; [split; reflexivity|split; reflexivity|split; reflexivity|lia].
Qed.
Theorem C138_spacecraft_needed : forall (coef : XR) w mp rows, alfven_rows_raf true coef w mp None rows = Err ValueError.
Proof. reflexivity. Qed.
(** In HCI coordinates the speed taken off is omega times the distance from the Sun's axis (omega = 2.865e-6 rad/s, distances in km). *)
Theorem C138_corotation_speed_hci : forall (au : R) (r : row XR) x y z, sc_position r = data3 (x, y, z) -> (x, y, z) <> (0, 0, 0) ->
  exists d, distance2sun (Fin au) "HCI" r = Ok d /\ corotation d (sc_position r) = Fin (2865 / 1000000000 * (695508 * sqrt (x * x + y * y))).
Proof.
  intros au r x y z H N. destruct (proj2 (C34_distance_to_sun au r x y z H)) as [d [E [Pd Ed]]]. exists (Fin d). split; [exact E|]. rewrite H. cbn [data3]. unfold corotation, omega_sun. rewrite !fin_sq.
  change [Fin (x * x); Fin (y * y); Fin (z * z)] with (map Fin [x * x; y * y; z * z]). change [Fin (x * x); Fin (y * y)] with (map Fin [x * x; y * y]). rewrite !sum_strict_fin. cbn [Rsum fold_right].
  assert (P : 0 < x * x + (y * y + (z * z + 0))).
  { destruct (Req_dec x 0) as [-> |Nx]; [destruct (Req_dec y 0) as [-> |Ny]; [destruct (Req_dec z 0) as [-> |Nz]; [contradict N; reflexivity|nra]|nra]|nra]. }
  rewrite !fin_sqrt by nra. rewrite fin_div by (apply Rgt_not_eq, sqrt_lt_R0; exact P). rewrite fin_ofZ, !fin_ofQ, !fin_mul. f_equal. rewrite Ed. unfold norm3. cbn [dot3].
  replace (x * x + (y * y + 0)) with (x * x + y * y) by ring. replace (x * x + (y * y + (z * z + 0))) with (x * x + y * y + z * z) in * by ring.
  assert (sqrt (x * x + y * y + z * z) <> 0) by (apply Rgt_not_eq, sqrt_lt_R0; exact P). field. exact H0.
Qed.
(** In GSE coordinates it is not: the colatitude is taken from the position relative to the Earth. A spacecraft above the Earth's pole, one
    astronomical unit from the axis, gets no correction at all. *)
Theorem C138_corotation_speed_gse_refuted : exists r : row XR, sc_position r = data3 (0, 0, 1) /\
  forall au d, distance2sun (Fin au) "GSE" r = Ok (Fin d) -> au <= d /\ corotation (Fin d) (sc_position r) = Fin 0.
Proof.
  exists (fun k => if key_eqb k ("pos", "z", "")%string then Fin 1 else Fin 0). split; [reflexivity|]. intros au d H.
  destruct (proj1 (C34_distance_to_sun au (fun k => if key_eqb k ("pos", "z", "")%string then Fin 1 else Fin 0) 0 0 1 eq_refl)) as [d' [E [Pd Ed]]]. rewrite E in H. injection H as <-. split.
  - rewrite Ed. unfold norm3. cbn [dot3 add3 scale3]. apply Rle_trans with (Rabs au); [apply Rle_abs|]. rewrite <- sqrt_Rsqr_abs. apply sqrt_le_1_alt. unfold Rsqr. nra.
  - change (sc_position (fun k => if key_eqb k ("pos", "z", "")%string then Fin 1 else Fin 0)) with (data3 (0, 0, 1)). cbn [data3]. unfold corotation, omega_sun. rewrite !fin_sq.
    change [Fin (0 * 0); Fin (0 * 0); Fin (1 * 1)] with (map Fin [0 * 0; 0 * 0; 1 * 1]). change [Fin (0 * 0); Fin (0 * 0)] with (map Fin [0 * 0; 0 * 0]). rewrite !sum_strict_fin. cbn [Rsum fold_right].
    rewrite !fin_sqrt by lra. replace (0 * 0 + (0 * 0 + (1 * 1 + 0))) with 1 by ring. replace (0 * 0 + (0 * 0 + 0)) with 0 by ring. rewrite sqrt_0, sqrt_1, fin_div by lra. rewrite fin_ofZ, !fin_ofQ, !fin_mul. f_equal. field.
Qed.
