(** C192 (the picture of a 2D histogram), C193 (its opacity), C194 (contours), C195 (labels name the normalisation),
    C196 (joint plots), C197 (beta-anisotropy plots). *)
From Coq Require Import Reals List String Ascii Bool Arith ZArith Lra Lia Permutation Sorted.
From Verif Require Import Py PyStr Num Sort Activity ActivityThms FitFuncsThms Hist HistThms HistMoreThms HistPlot HistPlotThms PlotTools PlotToolsThms LabelTables Labels Spacecraft Icme Hist2DPlot.
Import ListNotations.
Open Scope list_scope.
Open Scope R_scope.

(* ------------------------------------------------------------------ the edges of the bins *)
Fixpoint runiq (l : list R) : list R :=
  match l with
  | x :: ((y :: _) as r) => if Reqb x y then runiq r else x :: runiq r
  | _ => l
  end.
Lemma uniq_fin l : uniq (map Fin l) = map Fin (runiq l).
Proof.
  induction l as [|x l IH]; [reflexivity|]. destruct l as [|y r]; [reflexivity|].
  change (uniq (map Fin (x :: y :: r))) with (if aeqb (Fin x) (Fin y) then uniq (map Fin (y :: r)) else Fin x :: uniq (map Fin (y :: r))).
  rewrite IH, fin_eqb. change (runiq (x :: y :: r)) with (if Reqb x y then runiq (y :: r) else x :: runiq (y :: r)). destruct (Reqb x y); reflexivity.
Qed.
Lemma runiq_in l x : In x (runiq l) <-> In x l.
Proof.
  induction l as [|a l IH]; [tauto|]. destruct l as [|b r]; [tauto|].
  change (runiq (a :: b :: r)) with (if Reqb a b then runiq (b :: r) else a :: runiq (b :: r)). destruct (Reqb a b) eqn:E.
  - apply Reqb_true in E. subst b. rewrite IH. cbn [In]. tauto.
  - cbn [In] in *. rewrite IH. tauto.
Qed.
Lemma runiq_sorted l : StronglySorted Rle l -> StronglySorted Rlt (runiq l).
Proof.
  induction l as [|a l IH]; [constructor|]. destruct l as [|b r]; [repeat constructor|]. intro H.
  inversion H as [|? ? H' F]; subst. specialize (IH H'). change (runiq (a :: b :: r)) with (if Reqb a b then runiq (b :: r) else a :: runiq (b :: r)). destruct (Reqb a b) eqn:E; [exact IH|].
  constructor; [exact IH|]. apply Forall_forall. intros x I. rewrite runiq_in in I.
  assert (N : a <> b) by (intros ->; assert (Reqb b b = true) by (apply Reqb_true; reflexivity); congruence).
  rewrite Forall_forall in F. assert (a <= b) by (apply F; left; reflexivity).
  inversion H' as [|? ? _ G]; subst. rewrite Forall_forall in G. destruct I as [<-|I]; [lra|]. specialize (G x I). lra.
Qed.
Lemma same_rising (a b : list R) : StronglySorted Rlt a -> StronglySorted Rlt b -> (forall x, In x a <-> In x b) -> a = b.
Proof.
  revert b. induction a as [|x a IH]; intros b Sa Sb H.
  - destruct b as [|y b]; [reflexivity|]. exfalso. apply (proj2 (H y)). left. reflexivity.
  - destruct b as [|y b]; [exfalso; apply (proj1 (H x)); left; reflexivity|].
    inversion Sa as [|? ? Sa' Fa]; inversion Sb as [|? ? Sb' Fb]; subst. rewrite Forall_forall in Fa, Fb.
    assert (x = y).
    { destruct (proj1 (H x) (or_introl eq_refl)) as [E|I]; [congruence|]. destruct (proj2 (H y) (or_introl eq_refl)) as [E|J]; [congruence|]. specialize (Fa y J). specialize (Fb x I). lra. }
    subst y. f_equal. apply IH; [exact Sa'|exact Sb'|]. intro z. split; intro I.
    + destruct (proj1 (H z) (or_intror I)) as [<-|J]; [specialize (Fa x I); lra|exact J].
    + destruct (proj2 (H z) (or_intror I)) as [<-|J]; [specialize (Fb x I); lra|exact J].
Qed.
Lemma strictly_cons a e : strictly (a :: e) -> strictly e.
Proof. intros H i j L. apply (H (S i) (S j)). cbn. lia. Qed.
Lemma strictly_rising e : strictly e -> StronglySorted Rlt e.
Proof.
  induction e as [|a e IH]; intro H; [constructor|]. constructor; [apply IH, (strictly_cons a e H)|]. apply Forall_forall. intros x I.
  destruct (In_nth _ _ 0 I) as [k [L <-]]. apply (H 0%nat (S k)). cbn. lia.
Qed.
Lemma SS_le l : ordered l -> StronglySorted Rle l.
Proof.
  induction l as [|a l IH]; intro H; [constructor|]. constructor.
  - apply IH. intros i j L. apply (H (S i) (S j)). cbn. lia.
  - apply Forall_forall. intros x I. destruct (In_nth _ _ 0 I) as [k [L <-]]. apply (H 0%nat (S k)). cbn. lia.
Qed.
Lemma ends_in (e : list R) x : (2 <= List.length e)%nat -> In x (removelast e ++ tl e) <-> In x e.
Proof.
  intro L. destruct e as [|a [|b e]]; cbn in L; try lia. rewrite in_app_iff. split.
  - intros [I|I]; [|right; exact I]. rewrite (app_removelast_last 0) by discriminate. apply in_app_iff. left. exact I.
  - intros [<-|I]; [left; left; reflexivity|right; exact I].
Qed.
Lemma intervals_fst e : map fst (intervals (map Fin e)) = map Fin (removelast e).
Proof.
  induction e as [|a e IH]; [reflexivity|]. destruct e as [|b e]; [reflexivity|].
  change (intervals (map Fin (a :: b :: e))) with ((Fin a, Fin b) :: intervals (map Fin (b :: e))). rewrite map_cons, IH. reflexivity.
Qed.
Lemma intervals_snd e : map snd (intervals (map Fin e)) = map Fin (tl e).
Proof.
  induction e as [|a e IH]; [reflexivity|]. destruct e as [|b e]; [reflexivity|].
  change (intervals (map Fin (a :: b :: e))) with ((Fin a, Fin b) :: intervals (map Fin (b :: e))). rewrite map_cons, IH. reflexivity.
Qed.
Lemma edges_are_edges e : strictly e -> (2 <= List.length e)%nat -> axis_edges (map Fin e) = map Fin e.
Proof.
  intros H L. unfold axis_edges. rewrite intervals_fst, intervals_snd, <- map_app, sort_fin, uniq_fin. f_equal.
  apply same_rising; [apply runiq_sorted, SS_le, sorted_ordered|apply strictly_rising, H|].
  intro x. rewrite runiq_in, <- (ends_in e x L). split; apply Permutation_in; [|apply Permutation_sym]; apply sort_by_perm.
Qed.
Lemma len_edges e : strictly e -> (2 <= List.length e)%nat -> List.length (axis_edges (map Fin e)) = S (List.length (intervals (map Fin e))).
Proof. intros H L. rewrite edges_are_edges by assumption. rewrite intervals_nth, !map_length, seq_length. unfold nbin. lia. Qed.

(* ------------------------------------------------------------------ the grid of values *)
Lemma no_entry_value (axis : k2 -> nat) (t : list (k2 * XR)) i j k : (axis = fst \/ axis = snd) -> axis (i, j) = k ->
  existsb (fun kv => Nat.eqb (axis (fst kv)) k) t = false -> agg2_value t i j = NaN.
Proof.
  intros Ax <-. unfold agg2_value. induction t as [|[q v] t IH]; [reflexivity|]. cbn [existsb fst]. intro H. apply orb_false_elim in H as [H1 H2]. cbn [at_key].
  replace (k2_eqb q (i, j)) with false; [apply IH, H2|]. symmetry. unfold k2_eqb. destruct Ax as [-> | ->]; rewrite H1; [reflexivity|apply andb_false_r].
Qed.
Lemma filter_full {X} (p : X -> bool) l : List.length (filter p l) = List.length l -> filter p l = l.
Proof.
  induction l as [|x l IH]; [reflexivity|]. cbn [filter]. destruct (p x); cbn [List.length]; intro H; [f_equal; apply IH; lia|].
  exfalso. assert (List.length (filter p l) <= List.length l)%nat by apply tally_le. lia.
Qed.
Lemma under_map {X} (labels : list nat) (g : nat -> X) d k : under labels (map g labels) d k = if existsb (Nat.eqb k) labels then g k else d.
Proof.
  induction labels as [|l ls IH]; [reflexivity|]. cbn [map under existsb]. rewrite (Nat.eqb_sym k l). destruct (Nat.eqb_spec l k) as [->|N]; [reflexivity|]. exact IH.
Qed.
Lemma existsb_nat k l : existsb (Nat.eqb k) l = true <-> In k l.
Proof. rewrite existsb_exists. split; [intros (x & I & E); apply Nat.eqb_eq in E; subst; exact I|intro I; exists k; split; [exact I|apply Nat.eqb_refl]]. Qed.
Lemma not_in_entry axis (t : list (k2 * XR)) n k : (k < n)%nat -> existsb (Nat.eqb k) (with_entry axis t n) = false -> existsb (fun kv => Nat.eqb (axis (fst kv)) k) t = false.
Proof.
  intros L H. destruct (existsb (fun kv => Nat.eqb (axis (fst kv)) k) t) eqn:E; [|reflexivity]. exfalso.
  assert (I : In k (with_entry axis t n)) by (apply filter_In; split; [apply in_seq; lia|exact E]). apply existsb_nat in I. congruence.
Qed.
(** the full grid *)
Definition full_grid (bx by_ : list XR) (t : list (k2 * XR)) : list (list XR) := map (fun j => map (fun i => agg2_value t i j) (bins bx)) (bins by_).
Lemma map_const {X Y} (f : X -> Y) (d : Y) l : (forall x, In x l -> f x = d) -> map f l = map (fun _ => d) l.
Proof. intro H. apply map_ext_in. exact H. Qed.
Lemma grid_is_full (off : nat) (bx by_ : list XR) t nx ny :
  nx = (List.length (intervals bx) + off)%nat -> ny = (List.length (intervals by_) + off)%nat ->
  let fr := unstack_x bx by_ t in
  let fr := if Nat.eqb nx (List.length (f_columns fr) + off) then fr else reindex_columns (bins bx) fr in
  let fr := if Nat.eqb ny (List.length (f_index fr) + off) then fr else reindex_rows (bins by_) fr in
  f_values fr = full_grid bx by_ t.
Proof.
  intros -> ->. cbv zeta. set (fr := unstack_x bx by_ t).
  set (rows := with_entry snd t (List.length (intervals by_))).
  assert (C : exists fr1, (if Nat.eqb (List.length (intervals bx) + off) (List.length (f_columns fr) + off) then fr else reindex_columns (bins bx) fr) = fr1
    /\ f_columns fr1 = bins bx /\ f_index fr1 = rows /\ f_values fr1 = map (fun j => map (fun i => agg2_value t i j) (bins bx)) rows).
  { eexists. split; [reflexivity|]. destruct (Nat.eqb_spec (List.length (intervals bx) + off) (List.length (f_columns fr) + off)) as [E|_].
    - assert (E' : with_entry fst t (List.length (intervals bx)) = bins bx).
      { unfold bins. apply filter_full. rewrite seq_length. cbn [fr unstack_x f_columns] in E. unfold fr, unstack_x, f_columns, with_entry in E. lia. }
      unfold fr, unstack_x. cbn [f_columns f_index f_values]. rewrite E'. auto.
    - split; [reflexivity|]. split; [reflexivity|]. unfold fr, unstack_x, reindex_columns. cbn [f_columns f_index f_values]. fold rows. rewrite map_map. apply map_ext. intro j. apply map_ext_in. intros i I.
      rewrite under_map. destruct (existsb (Nat.eqb i) _) eqn:E; [reflexivity|]. symmetry. apply (no_entry_value fst t i j i); [left; reflexivity|reflexivity|].
      apply (not_in_entry fst t (List.length (intervals bx))); [|exact E]. unfold bins in I. apply in_seq in I. lia. }
  destruct C as (fr1 & -> & C1 & C2 & C3).
  destruct (Nat.eqb_spec (List.length (intervals by_) + off) (List.length (f_index fr1) + off)) as [E|_].
  - assert (E' : rows = bins by_).
    { unfold rows, bins. apply filter_full. rewrite seq_length. rewrite C2 in E. unfold rows, with_entry in E. lia. }
    rewrite C3, E'. reflexivity.
  - unfold reindex_rows. cbn [f_values]. rewrite C1, C2, C3. unfold full_grid. apply map_ext_in. intros j J. rewrite under_map. destruct (existsb (Nat.eqb j) rows) eqn:E; [reflexivity|].
    symmetry. apply map_const. intros i _. apply (no_entry_value snd t i j j); [right; reflexivity|reflexivity|].
    apply (not_in_entry snd t (List.length (intervals by_))); [|exact E]. unfold bins in J. apply in_seq in J. lia.
Qed.

(* ------------------------------------------------------------------ C192: the picture *)
(** the value of an axis coordinate as drawn *)
Definition as_drawn (lg : bool) (x : R) : R := if lg then Rpower 10 x else x.
Lemma delogged_fin lg e : delogged lg (map Fin e) = map Fin (map (as_drawn lg) e).
Proof. unfold delogged. rewrite !map_map. apply map_ext. intro x. destruct lg; [apply exp10_fin|reflexivity]. Qed.
(** what is drawn of a value: nothing if it is not a finite number *)
Definition shows (v : XR) (o : option XR) : Prop := match v with Fin _ => o = Some v | _ => o = None end.
Lemma masked_shows v : shows v (masked v).
Proof. destruct v; reflexivity. Qed.
Lemma prep_edges lx ly ex ey t : strictly ex -> strictly ey -> (2 <= List.length ex)%nat -> (2 <= List.length ey)%nat ->
  prep_agg true lx ly (map Fin ex) (map Fin ey) t = (full_grid (map Fin ex) (map Fin ey) t, map Fin (map (as_drawn lx) ex), map Fin (map (as_drawn ly) ey)).
Proof.
  intros Sx Sy Lx Ly. unfold prep_agg. rewrite (grid_is_full 1 (map Fin ex) (map Fin ey) t) by (rewrite len_edges by assumption; lia).
  rewrite !edges_are_edges, !delogged_fin by assumption. reflexivity.
Qed.
(** the entry of row j, column i *)
Definition entry {X} (C : list (list X)) (j i : nat) : option X := match nth_error C j with Some row => nth_error row i | None => None end.
Lemma entry_map {X Y} (f : X -> Y) C j i : entry (map (map f) C) j i = option_map f (entry C j i).
Proof. unfold entry. rewrite nth_error_map. destruct (nth_error C j); [cbn [option_map]; apply nth_error_map|reflexivity]. Qed.
Lemma seq_nth_error n k : (k < n)%nat -> nth_error (seq 0 n) k = Some k.
Proof. intro L. rewrite (nth_error_nth' _ 0%nat) by (rewrite seq_length; exact L). rewrite seq_nth by exact L. reflexivity. Qed.
Lemma entry_grid ex ey t i j : (i < nbin ex)%nat -> (j < nbin ey)%nat -> entry (full_grid (map Fin ex) (map Fin ey) t) j i = Some (agg2_value t i j).
Proof. intros Li Lj. unfold entry, full_grid. rewrite !bins_fin. rewrite nth_error_map, (seq_nth_error _ j) by exact Lj. cbn [option_map]. rewrite nth_error_map, (seq_nth_error _ i) by exact Li. reflexivity. Qed.

(** For any normalization, limits and aggregation: the picture has one column per x bin and one row per y bin, observed or not; cell (i, j) is
    drawn between the i-th and next x edge and the j-th and next y edge, and shows the aggregate of that bin (nothing where it is not a number). *)
Theorem C192_every_cell_in_its_place : forall lx ly norm clim alim ex ey f data, strictly ex -> strictly ey -> (2 <= List.length ex)%nat -> (2 <= List.length ey)%nat ->
  let pic := make_plot lx ly norm clim alim (map Fin ex) (map Fin ey) f data in
  let t := agg2 lx ly norm clim alim (map Fin ex) (map Fin ey) f data in
  p_x pic = map Fin (map (as_drawn lx) ex) /\ p_y pic = map Fin (map (as_drawn ly) ey)
  /\ List.length (p_C pic) = nbin ey /\ (forall row, In row (p_C pic) -> List.length row = nbin ex)
  /\ forall i j, (i < nbin ex)%nat -> (j < nbin ey)%nat -> exists o, entry (p_C pic) j i = Some o /\ shows (agg2_value t i j) o.
Proof.
  intros lx ly norm clim alim ex ey f data Sx Sy Lx Ly pic t. unfold pic, make_plot. fold t. rewrite prep_edges by assumption. cbn [p_x p_y p_C].
  split; [reflexivity|]. split; [reflexivity|]. split; [|split].
  - unfold masked2, full_grid. rewrite !map_length, bins_fin, seq_length. reflexivity.
  - intros row I. unfold masked2, full_grid in I. rewrite map_map in I. apply in_map_iff in I as (j & <- & _). rewrite !map_length, bins_fin, seq_length. reflexivity.
  - intros i j Li Lj. exists (masked (agg2_value t i j)). split; [|apply masked_shows]. unfold masked2. rewrite entry_map, entry_grid by assumption. reflexivity.
Qed.
(** the magnitude a log axis shows *)
Definition magnitude (lg : bool) (v : XR) : XR := if lg then aabs v else v.
Lemma ln10_pos : 0 < ln 10.
Proof. rewrite <- ln_1. apply ln_increasing; lra. Qed.
Lemma power_mono a b : a < b <-> Rpower 10 a < Rpower 10 b.
Proof.
  assert (P : 0 < ln 10) by apply ln10_pos. unfold Rpower. split; intro H.
  - apply exp_increasing. apply Rmult_lt_compat_r; assumption.
  - apply exp_lt_inv in H. apply Rmult_lt_reg_r in H; assumption.
Qed.
Lemma Rltb_iff a b c d : (a < b <-> c < d) -> Rltb a b = Rltb c d.
Proof.
  intro H. destruct (Rltb a b) eqn:E, (Rltb c d) eqn:F; try reflexivity;
    [apply (proj1 (Rltb_true _ _)) in E; apply (proj1 (Rltb_false _ _)) in F; apply (proj1 H) in E; lra|apply (proj1 (Rltb_false _ _)) in E; apply (proj1 (Rltb_true _ _)) in F; apply (proj2 H) in F; lra].
Qed.
Lemma Rleb_iff a b c d : (b < a <-> d < c) -> Rleb a b = Rleb c d.
Proof.
  intro H. destruct (Rleb a b) eqn:E, (Rleb c d) eqn:F; try reflexivity;
    [apply (proj1 (Rleb_true _ _)) in E; apply (proj1 (Rleb_false _ _)) in F; apply (proj2 H) in F; lra|apply (proj1 (Rleb_false _ _)) in E; apply (proj1 (Rleb_true _ _)) in F; apply (proj1 H) in E; lra].
Qed.
Lemma inf_in_no_bin lo hi a b v : v = PInf \/ v = MInf -> aabs v = PInf -> inb lo hi (log10 (aabs v)) = inb a b (aabs v).
Proof.
  intros _ ->. unfold log10. rewrite fin_ofZ, fin_ln by lra. change (tln PInf) with PInf. change (adiv PInf (Fin (ln 10))) with (xdiv PInf (Fin (ln 10))). unfold xdiv. destruct (Rltb (ln 10) 0); reflexivity.
Qed.
Lemma drawn_bin lg lo hi v : inb lo hi (coord lg v) = inb (as_drawn lg lo) (as_drawn lg hi) (magnitude lg v).
Proof.
  destruct lg; [|reflexivity]. unfold coord, magnitude, as_drawn. destruct v as [x| | |]; [|solve [apply inf_in_no_bin; [auto|reflexivity]]..|].
  2:{ unfold log10. reflexivity. }
  rewrite fin_abs. pose proof (Rabs_pos x) as NN. destruct (Req_dec (Rabs x) 0) as [Z|NZ].
  - rewrite Z. unfold log10. assert (E : tln (Fin 0) = MInf) by (change (tln (Fin 0)) with (xln (Fin 0)); unfold xln; replace (Rltb 0 0) with false by (symmetry; apply Rltb_false; lra); reflexivity).
    assert (P : 0 < Rpower 10 lo) by apply exp_pos.
    replace (inb (Rpower 10 lo) (Rpower 10 hi) (Fin 0)) with false; [|symmetry; unfold inb; replace (Rltb (Rpower 10 lo) 0) with false by (symmetry; apply Rltb_false; lra); reflexivity].
    rewrite fin_ofZ, E, fin_ln by lra. change (adiv MInf (Fin (ln 10))) with (xdiv MInf (Fin (ln 10))). unfold xdiv. destruct (Rltb (ln 10) 0); reflexivity.
  - assert (P : 0 < Rabs x) by lra. unfold log10. rewrite fin_ofZ, !fin_ln by lra. pose proof ln10_pos as LP. rewrite fin_div by lra. unfold inb.
    assert (E : Rabs x = Rpower 10 (ln (Rabs x) / ln 10)) by (unfold Rpower; replace (ln (Rabs x) / ln 10 * ln 10) with (ln (Rabs x)) by (field; lra); symmetry; apply exp_ln, P).
    set (y := ln (Rabs x) / ln 10) in *. rewrite E. f_equal; [apply Rltb_iff, power_mono|apply Rleb_iff, power_mono].
Qed.
(** End to end, for counts: every drawn cell shows the number of data (raw values; magnitudes on log axes) above its lower left corner and up to
    its upper right corner, and nothing where there are none. *)
Theorem C192_counts_in_drawn_cells : forall lx ly ex ey xs ys data, strictly ex -> strictly ey -> (2 <= List.length ex)%nat -> (2 <= List.length ey)%nat ->
  set_data2 lx ly xs ys None = Ok data ->
  let pic := make_plot lx ly N2None nolim nolim (map Fin ex) (map Fin ey) FDefault data in
  forall i j x0 x1 y0 y1, nth_error (p_x pic) i = Some (Fin x0) -> nth_error (p_x pic) (S i) = Some (Fin x1) -> nth_error (p_y pic) j = Some (Fin y0) -> nth_error (p_y pic) (S j) = Some (Fin y1) ->
  let n := tally (fun p => inb x0 x1 (magnitude lx (fst p)) && inb y0 y1 (magnitude ly (snd p))) (combine xs ys) in
  entry (p_C pic) j i = Some (if Nat.eqb n 0 then None else Some (Fin (INR n))).
Proof.
  intros lx ly ex ey xs ys data Sx Sy Lx Ly SD pic i j x0 x1 y0 y1 Hx0 Hx1 Hy0 Hy1 n.
  destruct (C192_every_cell_in_its_place lx ly N2None nolim nolim ex ey FDefault data Sx Sy Lx Ly) as (PX & PY & _ & _ & H). fold pic in PX, PY, H.
  assert (NX : forall k v, nth_error (map Fin (map (as_drawn lx) ex)) k = Some (Fin v) -> (k < List.length ex)%nat /\ v = as_drawn lx (nth k ex 0)).
  { intros k v E. rewrite map_map, nth_error_map in E. destruct (nth_error ex k) as [u|] eqn:Eu; [|discriminate]. split; [apply nth_error_Some; congruence|]. apply (nth_error_nth _ _ 0) in Eu. rewrite Eu. cbn in E. congruence. }
  assert (NY : forall k v, nth_error (map Fin (map (as_drawn ly) ey)) k = Some (Fin v) -> (k < List.length ey)%nat /\ v = as_drawn ly (nth k ey 0)).
  { intros k v E. rewrite map_map, nth_error_map in E. destruct (nth_error ey k) as [u|] eqn:Eu; [|discriminate]. split; [apply nth_error_Some; congruence|]. apply (nth_error_nth _ _ 0) in Eu. rewrite Eu. cbn in E. congruence. }
  rewrite PX in Hx0, Hx1. rewrite PY in Hy0, Hy1. apply NX in Hx0 as [_ ->]. apply NX in Hx1 as [Li ->]. apply NY in Hy0 as [_ ->]. apply NY in Hy1 as [Lj ->].
  destruct (H i j) as (o & E & Sh); [unfold nbin; lia|unfold nbin; lia|]. rewrite E. f_equal.
  destruct (C71_counts_2d lx ly ex ey xs ys data (strictly_ordered _ Sx) (strictly_ordered _ Sy) SD) as [CN _]. specialize (CN i j Li Lj). cbv zeta in CN. rewrite CN in Sh.
  assert (EN : tally (fun p : XR * XR => inb (nth i ex 0) (nth (S i) ex 0) (coord lx (fst p)) && inb (nth j ey 0) (nth (S j) ey 0) (coord ly (snd p))) (combine xs ys) = n).
  { unfold n. apply tally_ext. intros p _. rewrite !drawn_bin. reflexivity. }
  rewrite EN in Sh. destruct (Nat.eqb n 0); exact Sh.
Qed.
Example C192_ex : strictly [0; 1; 2] /\ exists data, set_data2 true false [Fin 5; Fin (-50)] [Fin 1; Fin 2] None = Ok data
  /\ entry (p_C (make_plot true false N2None nolim nolim (map Fin [0; 1; 2]) (map Fin [0; 1; 2]) FDefault data)) 1 1 = Some (Some (Fin (INR 1))).
Proof.
  assert (S3 : strictly [0; 1; 2]) by apply strictly_012. split; [exact S3|]. assert (SD : exists data, set_data2 true false [Fin 5; Fin (-50)] [Fin 1; Fin 2] None = Ok data) by (eexists; reflexivity). destruct SD as [data SD]. exists data. split; [exact SD|].
  assert (P2 : Rpower 10 2 = 100) by (replace 2 with (INR 2) by (cbn; lra); rewrite Rpower_pow by lra; cbn; lra).
  rewrite (C192_counts_in_drawn_cells true false [0; 1; 2] [0; 1; 2] [Fin 5; Fin (-50)] [Fin 1; Fin 2] data S3 S3 ltac:(cbn; lia) ltac:(cbn; lia) SD 1 1 10 100 1 2).
  - assert (E : tally (fun p : XR * XR => inb 10 100 (magnitude true (fst p)) && inb 1 2 (magnitude false (snd p))) (combine [Fin 5; Fin (-50)] [Fin 1; Fin 2]) = 1%nat); [|rewrite E; reflexivity].
    cbn [combine]. unfold tally. cbn [filter fst snd magnitude]. rewrite !fin_abs. unfold inb.
    replace (Rltb 10 (Rabs 5)) with false by (symmetry; apply Rltb_false; rewrite Rabs_right; lra).
    replace (Rltb 10 (Rabs (-50))) with true by (symmetry; apply Rltb_true; rewrite Rabs_left; lra). replace (Rleb (Rabs (-50)) 100) with true by (symmetry; apply Rleb_true; rewrite Rabs_left; lra).
    replace (Rltb 1 2) with true by (symmetry; apply Rltb_true; lra). replace (Rleb 2 2) with true by (symmetry; apply Rleb_true; lra). reflexivity.
  - rewrite (proj1 (C192_every_cell_in_its_place true false N2None nolim nolim [0;1;2] [0;1;2] FDefault data S3 S3 ltac:(cbn; lia) ltac:(cbn; lia))). cbn. rewrite Rpower_1 by lra. reflexivity.
  - rewrite (proj1 (C192_every_cell_in_its_place true false N2None nolim nolim [0;1;2] [0;1;2] FDefault data S3 S3 ltac:(cbn; lia) ltac:(cbn; lia))). cbn. rewrite P2. reflexivity.
  - rewrite (proj1 (proj2 (C192_every_cell_in_its_place true false N2None nolim nolim [0;1;2] [0;1;2] FDefault data S3 S3 ltac:(cbn; lia) ltac:(cbn; lia)))). reflexivity.
  - rewrite (proj1 (proj2 (C192_every_cell_in_its_place true false N2None nolim nolim [0;1;2] [0;1;2] FDefault data S3 S3 ltac:(cbn; lia) ltac:(cbn; lia)))). reflexivity.
Qed.

(* ------------------------------------------------------------------ C193: opacity *)
Lemma inter_len e : List.length (intervals (map Fin e)) = nbin e.
Proof. rewrite intervals_nth, map_length, seq_length. reflexivity. Qed.
Section Observed.
  Variables (lx ly : bool) (norm : axnorm2) (clim alim : option XR * option XR) (ex ey : list R) (f : fcn (T := XR)) (data : list (XR * XR * XR)).
  Hypothesis Ox : ordered ex.
  Hypothesis Oy : ordered ey.
  Let t := agg2 lx ly norm clim alim (map Fin ex) (map Fin ey) f data.
  Lemma has_entry k : (exists v, In (k, v) t) <-> (fst k < nbin ex)%nat /\ (snd k < nbin ey)%nat /\ exists r, In r data /\ cell2 ex ey (fst k) (snd k) r = true.
  Proof.
    unfold t. destruct (shape2 lx ly norm clim alim (map Fin ex) (map Fin ey) f data) as [g ->]. unfold gtab. destruct k as [i j]. cbn [fst snd]. split.
    - intros [v I]. apply in_map_iff in I as (q & Q & I). injection Q as -> _. apply filter_In in I as [I O]. unfold is_observed in O.
      apply existsb_exists in O as (r & Ir & C). unfold rows2 in Ir. apply in_map_iff in Ir as (d & <- & Id). cbn [fst] in C. destruct (cut2 (map Fin ex) (map Fin ey) d) as [q'|] eqn:Eq; [|discriminate].
      apply k2_eqb_spec in C. subst q'. apply cut2_some in Eq; [|exact Ox|exact Oy]. destruct Eq as (Li & Lj & C). split; [exact Li|]. split; [exact Lj|]. exists d. auto.
    - intros (Li & Lj & r & Ir & C). exists (g (i, j)). apply in_map_iff. exists (i, j). split; [reflexivity|]. apply filter_In.
      split; [rewrite bins2_grid; apply in_grid; auto|]. unfold is_observed. apply existsb_exists. exists (cut2 (map Fin ex) (map Fin ey) r, snd r). split; [unfold rows2; apply in_map_iff; exists r; auto|].
      cbn [fst]. replace (cut2 (map Fin ex) (map Fin ey) r) with (Some (i, j)) by (symmetry; apply cut2_some; auto). apply k2_eqb_spec. reflexivity.
  Qed.
  Lemma column_entry i : In i (with_entry fst t (List.length (intervals (map Fin ex)))) <-> (i < nbin ex)%nat /\ exists r j, In r data /\ (j < nbin ey)%nat /\ cell2 ex ey i j r = true.
  Proof.
    rewrite inter_len. unfold with_entry. rewrite filter_In, in_seq, existsb_exists. split.
    - intros [L ([k v] & I & E)]. cbn [fst] in E. apply Nat.eqb_eq in E. destruct (proj1 (has_entry k) (ex_intro _ v I)) as (_ & Lj & r & Ir & C). rewrite E in C. split; [lia|]. exists r, (snd k). auto.
    - intros [L (r & j & Ir & Lj & C)]. split; [lia|]. destruct (proj2 (has_entry (i, j))) as [v I]; [cbn [fst snd]; eauto|]. exists ((i, j), v). split; [exact I|apply Nat.eqb_refl].
  Qed.
  Lemma row_entry j : In j (with_entry snd t (List.length (intervals (map Fin ey)))) <-> (j < nbin ey)%nat /\ exists r i, In r data /\ (i < nbin ex)%nat /\ cell2 ex ey i j r = true.
  Proof.
    rewrite inter_len. unfold with_entry. rewrite filter_In, in_seq, existsb_exists. split.
    - intros [L ([k v] & I & E)]. cbn [fst] in E. apply Nat.eqb_eq in E. destruct (proj1 (has_entry k) (ex_intro _ v I)) as (Li & _ & r & Ir & C). rewrite E in C. split; [lia|]. exists r, (fst k). auto.
    - intros [L (r & i & Ir & Li & C)]. split; [lia|]. destruct (proj2 (has_entry (i, j))) as [v I]; [cbn [fst snd]; eauto|]. exists ((i, j), v). split; [exact I|apply Nat.eqb_refl].
  Qed.
End Observed.
Lemma concat_entry {X} (C : list (list X)) nx j i : (forall row, In row C -> List.length row = nx) -> (i < nx)%nat -> nth_error (List.concat C) (j * nx + i) = entry C j i.
Proof.
  intros H Li. revert j. induction C as [|row C IH]; intro j; [unfold entry; destruct j; cbn [nth_error List.concat]; apply nth_error_None; cbn; lia|].
  cbn [List.concat]. assert (Lr : List.length row = nx) by (apply H; left; reflexivity). destruct j as [|j].
  - cbn [Nat.mul Nat.add]. rewrite nth_error_app1 by lia. reflexivity.
  - rewrite nth_error_app2 by (cbn; lia). replace (S j * nx + i - List.length row)%nat with (j * nx + i)%nat by (cbn; lia). rewrite IH by (intros r I; apply H; right; exact I). reflexivity.
Qed.
Lemma concat_length {X} (C : list (list X)) nx : (forall row, In row C -> List.length row = nx) -> List.length (List.concat C) = (List.length C * nx)%nat.
Proof. intro H. induction C as [|row C IH]; [reflexivity|]. cbn [List.concat List.length Nat.mul]. rewrite app_length, IH by (intros r I; apply H; right; exact I). rewrite (H row (or_introl eq_refl)). reflexivity. Qed.
Lemma grid_rows ex ey t row : In row (full_grid (map Fin ex) (map Fin ey) t) -> List.length row = nbin ex.
Proof. unfold full_grid. rewrite !bins_fin. intro I. apply in_map_iff in I as (j & <- & _). rewrite map_length, seq_length. reflexivity. Qed.
Lemma grid_len ex ey t : List.length (full_grid (map Fin ex) (map Fin ey) t) = nbin ey.
Proof. unfold full_grid. rewrite !bins_fin. etransitivity; [apply map_length|apply seq_length]. Qed.
Lemma distinct_mem_any (l : list XR) x : In (Fin x) l -> In (Fin x) (distinct l).
Proof.
  induction l as [|a l IH]; [intros []|]. cbn [distinct]. intros [->|I].
  - destruct (existsb (aeqb (Fin x)) l) eqn:E; [|left; reflexivity]. apply IH. apply existsb_exists in E as (v & I & Q). destruct v as [y| | |]; [|discriminate Q..]. rewrite fin_eqb in Q. apply Reqb_true in Q. subst y. exact I.
  - destruct (existsb (aeqb a) l); [apply IH, I|right; apply IH, I].
Qed.
(** the coloured values differ: at least two different numbers are aggregated *)
Definition coloured (data : list (XR * XR * XR)) : Prop := exists a b, In (Fin a) (map snd data) /\ In (Fin b) (map snd data) /\ a <> b.
Lemma coloured_test data : coloured data -> Nat.ltb 1 (List.length (distinct (filter notnan (map snd data)))) = true.
Proof.
  intros (a & b & Ia & Ib & N). apply Nat.ltb_lt. assert (Da : In (Fin a) (distinct (filter notnan (map snd data)))) by (apply distinct_mem_any, filter_In; auto).
  assert (Db : In (Fin b) (distinct (filter notnan (map snd data)))) by (apply distinct_mem_any, filter_In; auto).
  destruct (distinct (filter notnan (map snd data))) as [|x [|y l]]; [destruct Da| |cbn; lia]. exfalso. destruct Da as [-> |[]]. destruct Db as [E|[]]. congruence.
Qed.
Definition column_used ex ey (data : list (XR * XR * XR)) i : Prop := exists r j, In r data /\ (j < nbin ey)%nat /\ cell2 ex ey i j r = true.
Definition row_used ex ey (data : list (XR * XR * XR)) j : Prop := exists r i, In r data /\ (i < nbin ex)%nat /\ cell2 ex ey i j r = true.
(** When every column and every row of bins holds data: face (i, j) gets an opacity between 0 and 1 that falls with the aggregate of its own bin, and is invisible if it
    has none. *)
Theorem C193_opacity_partial : forall lx ly norm clim alim ex ey f data, ordered ex -> ordered ey -> coloured data ->
  (forall i, (i < nbin ex)%nat -> column_used ex ey data i) -> (forall j, (j < nbin ey)%nat -> row_used ex ey data j) ->
  let t := agg2 lx ly norm clim alim (map Fin ex) (map Fin ey) f data in
  exists alpha (g : R -> R), face_opacity lx ly norm clim alim (map Fin ex) (map Fin ey) f data = Ok (Some alpha)
  /\ List.length alpha = (nbin ey * nbin ex)%nat
  /\ (forall i j, (i < nbin ex)%nat -> (j < nbin ey)%nat -> nth_error alpha (j * nbin ex + i) = Some (match agg2_value t i j with Fin x => Fin (g x) | _ => Fin 0 end))
  /\ (forall i j x, (i < nbin ex)%nat -> (j < nbin ey)%nat -> agg2_value t i j = Fin x -> 0 <= g x <= 1)
  /\ (forall i j x i' j' y, (i < nbin ex)%nat -> (j < nbin ey)%nat -> (i' < nbin ex)%nat -> (j' < nbin ey)%nat -> agg2_value t i j = Fin x -> agg2_value t i' j' = Fin y -> x < y -> g y < g x).
Proof.
  intros lx ly norm clim alim ex ey f data Ox Oy Co UC UR t. unfold face_opacity. rewrite (coloured_test data Co). fold t.
  assert (EC : with_entry fst t (List.length (intervals (map Fin ex))) = bins (map Fin ex)).
  { unfold bins. rewrite inter_len. unfold with_entry. transitivity (filter (fun _ : nat => true) (seq 0 (nbin ex))); [|apply filter_yes]. apply filter_ext_in. intros i I. apply in_seq in I.
    assert (J : In i (with_entry fst t (List.length (intervals (map Fin ex))))) by (apply column_entry; [exact Ox|exact Oy|]; split; [lia|]; apply UC; lia). unfold with_entry in J. apply filter_In in J as [_ J]. exact J. }
  assert (ER : with_entry snd t (List.length (intervals (map Fin ey))) = bins (map Fin ey)).
  { unfold bins. rewrite inter_len. unfold with_entry. transitivity (filter (fun _ : nat => true) (seq 0 (nbin ey))); [|apply filter_yes]. apply filter_ext_in. intros j I. apply in_seq in I.
    assert (J : In j (with_entry snd t (List.length (intervals (map Fin ey))))) by (apply row_entry; [exact Ox|exact Oy|]; split; [lia|]; apply UR; lia). unfold with_entry in J. apply filter_In in J as [_ J]. exact J. }
  assert (EF : f_values (unstack_x (map Fin ex) (map Fin ey) t) = full_grid (map Fin ex) (map Fin ey) t) by (unfold unstack_x; cbn [f_values]; rewrite EC, ER; reflexivity).
  rewrite EF. set (cells := List.concat (full_grid (map Fin ex) (map Fin ey) t)).
  assert (LC : List.length cells = (nbin ey * nbin ex)%nat) by (unfold cells; rewrite (concat_length _ (nbin ex)) by apply grid_rows; rewrite grid_len; reflexivity).
  destruct (C166_opacity cells) as (g & E & B01 & _ & _ & M). exists (opacity cells), g.
  assert (LA : List.length (opacity cells) = (nbin ey * nbin ex)%nat) by (rewrite E, map_length; exact LC).
  assert (NE : forall i j, (i < nbin ex)%nat -> (j < nbin ey)%nat -> nth_error cells (j * nbin ex + i) = Some (agg2_value t i j)).
  { intros i j Li Lj. unfold cells. rewrite concat_entry; [apply entry_grid; assumption|apply grid_rows|exact Li]. }
  assert (IR : forall i j x, (i < nbin ex)%nat -> (j < nbin ey)%nat -> agg2_value t i j = Fin x -> In x (reals cells)).
  { intros i j x Li Lj V. unfold reals. apply in_flat_map. exists (Fin x). split; [|left; reflexivity]. rewrite <- V. eapply nth_error_In. apply NE; assumption. }
  split; [|split; [exact LA|split; [|split]]].
  - cbv zeta. rewrite !bins_fin, !seq_length, LA, Nat.eqb_refl. reflexivity.
  - intros i j Li Lj. rewrite E, nth_error_map, NE by assumption. reflexivity.
  - intros i j x Li Lj V. apply B01. exact (IR i j x Li Lj V).
  - intros i j x i' j' y Li Lj Li' Lj' V V' L. apply M; [exact (IR i j x Li Lj V)|exact (IR i' j' y Li' Lj' V')|exact L].
Qed.
(** One empty column of bins is enough to make the documented [alpha_fcn] fail (unless all data share one bin). *)
Theorem C193_empty_column_refuted : forall lx ly norm clim alim ex ey f data i0 r1 r2 i1 j1 i2 j2, ordered ex -> ordered ey -> coloured data ->
  (i0 < nbin ex)%nat -> ~ column_used ex ey data i0 ->
  In r1 data -> (i1 < nbin ex)%nat -> (j1 < nbin ey)%nat -> cell2 ex ey i1 j1 r1 = true ->
  In r2 data -> (i2 < nbin ex)%nat -> (j2 < nbin ey)%nat -> cell2 ex ey i2 j2 r2 = true -> (i1, j1) <> (i2, j2) ->
  face_opacity lx ly norm clim alim (map Fin ex) (map Fin ey) f data = Err ValueError.
Proof.
  intros lx ly norm clim alim ex ey f data i0 r1 r2 i1 j1 i2 j2 Ox Oy Co L0 NU I1 Li1 Lj1 C1 I2 Li2 Lj2 C2 NE. unfold face_opacity. rewrite (coloured_test data Co).
  set (t := agg2 lx ly norm clim alim (map Fin ex) (map Fin ey) f data). cbv zeta.
  set (cols := with_entry fst t (List.length (intervals (map Fin ex)))). set (rows := with_entry snd t (List.length (intervals (map Fin ey)))).
  assert (HC : forall i, In i cols <-> (i < nbin ex)%nat /\ column_used ex ey data i) by (intro i; unfold cols, t; apply column_entry; assumption).
  assert (HR : forall j, In j rows <-> (j < nbin ey)%nat /\ row_used ex ey data j) by (intro j; unfold rows, t; apply row_entry; assumption).
  assert (Hi1 : In i1 cols) by (apply HC; split; [exact Li1|]; exists r1, j1; auto). assert (Hi2 : In i2 cols) by (apply HC; split; [exact Li2|]; exists r2, j2; auto).
  assert (Hj1 : In j1 rows) by (apply HR; split; [exact Lj1|]; exists r1, i1; auto). assert (Hj2 : In j2 rows) by (apply HR; split; [exact Lj2|]; exists r2, i2; auto).
  assert (LA : List.length (opacity (List.concat (f_values (unstack_x (map Fin ex) (map Fin ey) t)))) = (List.length rows * List.length cols)%nat).
  { unfold opacity. rewrite map_length. rewrite (concat_length _ (List.length cols)); unfold unstack_x; cbn [f_values]; fold cols rows; [rewrite map_length; reflexivity|]. intros row I. apply in_map_iff in I as (j & <- & _). apply map_length. }
  assert (ND : NoDup cols) by (apply NoDup_filter, seq_NoDup). assert (NR : NoDup rows) by (apply NoDup_filter, seq_NoDup).
  assert (LC : (List.length cols < nbin ex)%nat).
  { assert (Q : (List.length (i0 :: cols) <= List.length (seq 0 (nbin ex)))%nat).
    { apply NoDup_incl_length; [constructor; [rewrite HC; tauto|exact ND]|]. intros i [<-|I]; apply in_seq; [lia|]. apply HC in I. lia. }
    rewrite seq_length in Q. cbn [List.length] in Q. lia. }
  assert (LR : (List.length rows <= nbin ey)%nat).
  { rewrite <- (seq_length (nbin ey) 0). apply NoDup_incl_length; [exact NR|]. intros j I. apply in_seq. apply HR in I. lia. }
  assert (TWO : (2 <= List.length rows * List.length cols)%nat).
  { destruct (Nat.eq_dec i1 i2) as [->|Ni].
    - assert (Nj : j1 <> j2) by congruence. assert (Q : (List.length [j1; j2] <= List.length rows)%nat) by (apply NoDup_incl_length; [repeat constructor; cbn; intuition congruence|intros j [<-|[<-|[]]]; assumption]).
      assert (P : (1 <= List.length cols)%nat) by (destruct cols; [destruct Hi1|cbn; lia]). cbn [List.length] in Q. nia.
    - assert (Q : (List.length [i1; i2] <= List.length cols)%nat) by (apply NoDup_incl_length; [repeat constructor; cbn; intuition congruence|intros j [<-|[<-|[]]]; assumption]).
      assert (P : (1 <= List.length rows)%nat) by (destruct rows; [destruct Hj1|cbn; lia]). cbn [List.length] in Q. nia. }
  rewrite !bins_fin, !seq_length, LA. replace (Nat.eqb (List.length rows * List.length cols) (nbin ey * nbin ex)) with false by (symmetry; apply Nat.eqb_neq; nia).
  destruct (opacity _) as [|a [|b l]]; [reflexivity|cbn [List.length] in LA; lia|reflexivity].
Qed.
(** Without colours to fade (counts, or a constant z) [alpha_fcn] does nothing. *)
Theorem C193_counts_keep_their_opacity : forall lx ly norm clim alim bx by_ f data, unweighted data -> face_opacity (T := XR) lx ly norm clim alim bx by_ f data = Ok None.
Proof.
  intros lx ly norm clim alim bx by_ f data U. unfold face_opacity. destruct (Nat.ltb 1 _) eqn:E; [|reflexivity]. exfalso. apply Nat.ltb_lt in E.
  pose proof (not_weighted data U) as N. apply Nat.leb_gt in N. lia.
Qed.
Example C193_ex : coloured [(Fin 1, Fin 1, Fin 3); (Fin 2, Fin 1, Fin 4)] /\ ~ column_used [0; 1; 2; 3] [0; 1] [(Fin 1, Fin 1, Fin 3); (Fin 2, Fin 1, Fin 4)] 2
  /\ cell2 [0; 1; 2; 3] [0; 1] 0 0 (Fin 1, Fin 1, Fin 3) = true /\ cell2 [0; 1; 2; 3] [0; 1] 1 0 (Fin 2, Fin 1, Fin 4) = true.
Proof.
  split; [exists 3, 4; cbn; repeat split; auto; lra|]. unfold cell2, bin, inb. cbn [nth fst snd]. split.
  - intros (r & j & [<-|[<-|[]]] & _ & C); unfold cell2, bin, inb in C; cbn [nth fst snd] in C; apply andb_prop in C as [C _]; apply andb_prop in C as [C _]; apply (proj1 (Rltb_true _ _)) in C; lra.
  - split; repeat (apply andb_true_intro; split); first [apply Rltb_true; lra|apply Rleb_true; lra].
Qed.

(* ------------------------------------------------------------------ C194: contours *)
Lemma mids_len e : List.length (axis_mids (map Fin e)) = List.length (intervals (map Fin e)).
Proof. unfold axis_mids. apply map_length. Qed.
Lemma mids_drawn lg e : delogged lg (axis_mids (map Fin e)) = middles lg e.
Proof. rewrite <- plotted_middles. unfold delogged, axis_mids. rewrite map_map. reflexivity. Qed.
Lemma middles_len lg e : List.length (middles lg e) = nbin e.
Proof. unfold middles. rewrite map_length, seq_length. reflexivity. Qed.
Lemma prep_mids lx ly ex ey t : prep_agg false lx ly (map Fin ex) (map Fin ey) t = (full_grid (map Fin ex) (map Fin ey) t, middles lx ex, middles ly ey).
Proof. unfold prep_agg. rewrite (grid_is_full 0 (map Fin ex) (map Fin ey) t) by (rewrite mids_len; lia). rewrite !mids_drawn. reflexivity. Qed.
Lemma chunk_rows nx ny (l : list XR) row : List.length l = (ny * nx)%nat -> In row (chunk nx ny l) -> List.length row = nx.
Proof. intros L I. unfold chunk in I. apply in_map_iff in I as (j & <- & J). apply in_seq in J. rewrite firstn_length, skipn_length, L. nia. Qed.
Lemma chunk_len nx ny (l : list XR) : List.length (chunk nx ny l) = ny.
Proof. unfold chunk. rewrite map_length, seq_length. reflexivity. Qed.
Lemma nth_error_firstn_lt {X} (l : list X) n i : (i < n)%nat -> nth_error (firstn n l) i = nth_error l i.
Proof. revert l i. induction n as [|n IH]; intros l i L; [lia|]. destruct l as [|x l]; [destruct i; reflexivity|]. destruct i as [|i]; [reflexivity|]. cbn. apply IH. lia. Qed.
Lemma nth_error_skip {X} (l : list X) n i : nth_error (skipn n l) i = nth_error l (n + i).
Proof. revert l. induction n as [|n IH]; intro l; [reflexivity|]. destruct l as [|x l]; [cbn; destruct i; reflexivity|]. cbn. apply IH. Qed.
Lemma chunk_entry nx ny (l : list XR) j i : (i < nx)%nat -> (j < ny)%nat -> entry (chunk nx ny l) j i = nth_error l (j * nx + i).
Proof. intros Li Lj. unfold entry, chunk. rewrite nth_error_map, seq_nth_error by exact Lj. cbn [option_map]. rewrite nth_error_firstn_lt by exact Li. apply nth_error_skip. Qed.
Lemma contour_ok lx ly norm clim alim ex ey f s data C' :
  smooth s (nbin ex) (nbin ey) (full_grid (map Fin ex) (map Fin ey) (agg2 lx ly norm clim alim (map Fin ex) (map Fin ey) f data)) = C' ->
  List.length C' = nbin ey -> (forall row, In row C' -> List.length row = nbin ex) ->
  contour_data lx ly norm clim alim (map Fin ex) (map Fin ey) f s data = Ok (mkPicture (middles lx ex) (middles ly ey) (masked2 C')).
Proof.
  intros E L R. unfold contour_data. rewrite prep_mids, !middles_len, E, L, Nat.eqb_refl. cbn [andb].
  replace (forallb (fun row : list XR => Nat.eqb (List.length row) (nbin ex)) C') with true; [reflexivity|]. symmetry. apply forallb_forall. intros row I. rewrite (R row I). apply Nat.eqb_refl.
Qed.
(** Contours are drawn through exactly the values of the coloured picture, each placed inside its own cell. *)
Theorem C194_contours_follow_the_picture : forall lx ly norm clim alim ex ey f data, strictly ex -> strictly ey -> (2 <= List.length ex)%nat -> (2 <= List.length ey)%nat ->
  exists pic, contour_data lx ly norm clim alim (map Fin ex) (map Fin ey) f NoSmoothing data = Ok pic
  /\ p_C pic = p_C (make_plot lx ly norm clim alim (map Fin ex) (map Fin ey) f data)
  /\ List.length (p_x pic) = nbin ex /\ List.length (p_y pic) = nbin ey
  /\ (forall i, (i < nbin ex)%nat -> exists m, nth_error (p_x pic) i = Some (Fin m) /\ as_drawn lx (nth i ex 0) < m < as_drawn lx (nth (S i) ex 0))
  /\ (forall j, (j < nbin ey)%nat -> exists m, nth_error (p_y pic) j = Some (Fin m) /\ as_drawn ly (nth j ey 0) < m < as_drawn ly (nth (S j) ey 0)).
Proof.
  intros lx ly norm clim alim ex ey f data Sx Sy Lx Ly. eexists. split; [apply contour_ok; [reflexivity|apply grid_len|apply grid_rows]|]. cbn [p_C p_x p_y smooth].
  split; [unfold make_plot; rewrite prep_edges by assumption; reflexivity|]. split; [apply middles_len|]. split; [apply middles_len|].
  assert (M : forall lg e i, strictly e -> (i < nbin e)%nat -> exists m, nth_error (middles lg e) i = Some (Fin m) /\ as_drawn lg (nth i e 0) < m < as_drawn lg (nth (S i) e 0)).
  { intros lg e i Se Li. unfold middles. rewrite nth_error_map, seq_nth_error by exact Li. cbn [option_map]. eexists. split; [reflexivity|]. cbv zeta.
    assert (L : nth i e 0 < nth (S i) e 0) by (apply Se; unfold nbin in Li; lia). destruct lg; cbn [as_drawn]; [split; apply (proj1 (power_mono _ _)); lra|lra]. }
  split; intros k L; apply M; assumption.
Qed.
(** NaN-aware smoothing: the same cells are shown as without smoothing, and every smoothed value lies within the range of the shown values. *)
Theorem C194_nan_aware_smoothing : forall lx ly norm clim alim ex ey f data K, smoothing (nbin ey * nbin ex) K ->
  let t := agg2 lx ly norm clim alim (map Fin ex) (map Fin ey) f data in
  (forall i j, (i < nbin ex)%nat -> (j < nbin ey)%nat -> agg2_value t i j = NaN \/ exists r, agg2_value t i j = Fin r) ->
  exists pic, contour_data lx ly norm clim alim (map Fin ex) (map Fin ey) f (NanAware (map (map Fin) K)) data = Ok pic
  /\ forall i j, (i < nbin ex)%nat -> (j < nbin ey)%nat ->
     (agg2_value t i j = NaN -> entry (p_C pic) j i = Some None)
     /\ (forall r, agg2_value t i j = Fin r -> exists y, entry (p_C pic) j i = Some (Some (Fin y)) /\
           forall lo hi, (forall i' j' v, (i' < nbin ex)%nat -> (j' < nbin ey)%nat -> agg2_value t i' j' = Fin v -> lo <= v <= hi) -> lo <= y <= hi).
Proof.
  intros lx ly norm clim alim ex ey f data K SK t NI. set (cells := List.concat (full_grid (map Fin ex) (map Fin ey) t)).
  assert (LC : List.length cells = (nbin ey * nbin ex)%nat) by (unfold cells; rewrite (concat_length _ (nbin ex)) by apply grid_rows; rewrite grid_len; reflexivity).
  assert (NE : forall i j, (i < nbin ex)%nat -> (j < nbin ey)%nat -> nth_error cells (j * nbin ex + i) = Some (agg2_value t i j)).
  { intros i j Li Lj. unfold cells. rewrite concat_entry; [apply entry_grid; assumption|apply grid_rows|exact Li]. }
  assert (IN : forall x, In x cells -> exists i j, (i < nbin ex)%nat /\ (j < nbin ey)%nat /\ x = agg2_value t i j).
  { intros x I. unfold cells, full_grid in I. rewrite !bins_fin in I. apply in_concat in I as (row & I & J). apply in_map_iff in I as (j & <- & Ij). apply in_map_iff in J as (i & <- & Ii). apply in_seq in Ij, Ii. exists i, j. repeat split; lia. }
  assert (DO : data_ok cells) by (intros x I; destruct (IN x I) as (i & j & Li & Lj & ->); apply NI; assumption).
  destruct (C83_nan_smoothing _ K cells SK LC DO) as [LO SM].
  eexists. split; [apply contour_ok; [reflexivity| |]; cbn [smooth]; fold t; fold cells; [apply chunk_len|intros row I; eapply chunk_rows; [|exact I]; exact LO]|].
  cbn [p_C smooth]. fold t. fold cells. intros i j Li Lj. unfold masked2. rewrite entry_map, chunk_entry by assumption.
  assert (KR : exists row, nth_error K (j * nbin ex + i) = Some row).
  { destruct (nth_error K (j * nbin ex + i)) as [row|] eqn:E; [eauto|]. apply nth_error_None in E. rewrite (sm_rows _ _ SK) in E. nia. }
  destruct KR as [row KR]. destruct (SM _ _ _ KR (NE i j Li Lj)) as [S1 S2]. split.
  - intro V. rewrite (S1 V). reflexivity.
  - intros r V. destruct (S2 r V) as (y & E & _ & _ & B). exists y. rewrite E. split; [reflexivity|]. intros lo hi H. apply B. intros v I. destruct (IN _ I) as (i' & j' & Li' & Lj' & V'). eapply H; [exact Li'|exact Lj'|symmetry; exact V'].
Qed.
(** The default smoothing loses data: a cell disappears when any cell in the smoothing window is empty. *)
Theorem C194_default_smoothing_refuted : forall lx ly norm clim alim ex ey f data (K : list (list (nat * XR))), List.length K = (nbin ey * nbin ex)%nat ->
  let t := agg2 lx ly norm clim alim (map Fin ex) (map Fin ey) f data in
  exists pic, contour_data lx ly norm clim alim (map Fin ex) (map Fin ey) f (Plain K) data = Ok pic
  /\ forall i j i' j' win w, (i < nbin ex)%nat -> (j < nbin ey)%nat -> (i' < nbin ex)%nat -> (j' < nbin ey)%nat ->
     nth_error K (j * nbin ex + i) = Some win -> In ((j' * nbin ex + i')%nat, w) win -> agg2_value t i' j' = NaN -> entry (p_C pic) j i = Some None.
Proof.
  intros lx ly norm clim alim ex ey f data K LK t. set (cells := List.concat (full_grid (map Fin ex) (map Fin ey) t)).
  eexists. split; [apply contour_ok; [reflexivity| |]; cbn [smooth]; fold t; fold cells; [apply chunk_len|intros row I; eapply chunk_rows; [|exact I]; unfold window_filter; rewrite map_length; exact LK]|].
  cbn [p_C smooth]. fold t. fold cells. intros i j i' j' win w Li Lj Li' Lj' KW IW V. unfold masked2. rewrite entry_map, chunk_entry by assumption.
  unfold window_filter. rewrite nth_error_map, KW. cbn [option_map]. rewrite sum_strict_nan; [reflexivity|]. apply in_map_iff. exists ((j' * nbin ex + i')%nat, w). split; [|exact IW]. cbn [fst snd].
  assert (E : nth (j' * nbin ex + i') cells anan = NaN).
  { apply nth_error_nth. unfold cells. rewrite concat_entry; [|apply grid_rows|exact Li']. rewrite entry_grid by assumption. rewrite V. reflexivity. }
  rewrite E. destruct w; reflexivity.
Qed.

Example C194_ex : strictly [0; 1; 2] /\ strictly [0; 1] /\ smoothing (nbin [0; 1] * nbin [0; 1; 2]) [[/2; /2]; [/2; /2]]
  /\ agg2_value (agg2 false false N2None nolim nolim (map Fin [0; 1; 2]) (map Fin [0; 1]) FDefault [(Fin 1, Fin 1, Fin 1)]) 0 0 = Fin 1
  /\ agg2_value (agg2 false false N2None nolim nolim (map Fin [0; 1; 2]) (map Fin [0; 1]) FDefault [(Fin 1, Fin 1, Fin 1)]) 1 0 = NaN.
Proof.
  assert (S2 : strictly [0; 1]) by (intros i j H; cbn [List.length] in H; destruct j as [|[|j]]; [lia| |lia]; destruct i as [|i]; [cbn; lra|lia]).
  split; [apply strictly_012|]. split; [exact S2|]. split.
  { constructor.
    - reflexivity.
    - intros row [<-|[<-|[]]]; reflexivity.
    - intros row w [<-|[<-|[]]] [<-|[<-|[]]]; lra.
    - intros [|[|i]] row H; cbn in H; [| |destruct i; discriminate]; injection H as <-; eexists; (split; [reflexivity|lra]). }
  assert (U : unweighted [(Fin 1, Fin 1, Fin 1)]) by (intros r [<-|[]]; reflexivity).
  split; rewrite counts2_value by (first [apply strictly_ordered, strictly_012|apply strictly_ordered, S2|exact U|left; reflexivity|cbn; lia]);
  unfold tally, cell2, bin, inb; cbn [filter fst snd nth].
  - replace (Rltb 0 1) with true by (symmetry; apply Rltb_true; lra). replace (Rleb 1 1) with true by (symmetry; apply Rleb_true; lra). reflexivity.
  - replace (Rltb 1 1) with false by (symmetry; apply Rltb_false; lra). reflexivity.
Qed.

(* ------------------------------------------------------------------ C195: the colour bar names the normalisation *)
Definition count_tex (n : option string) : option string :=
  match n with
  | None => Some "\mathrm{Count}"
  | Some "c" => Some "\mathrm{Col. \, Norm \, Count}"
  | Some "r" => Some "\mathrm{Row \, Norm \, Count}"
  | Some "t" => Some "\mathrm{Total \, Norm \, Count}"
  | Some "d" => Some "\mathrm{Probability \, Density}"
  | Some "cd" | Some "rd" => Some "\mathrm{1D \, Probability \, Density}"
  | _ => None
  end%string.
Definition count_path (n : option string) : list string :=
  match n with
  | None => ["count"]
  | Some "c" => ["count"; "Cnorm"] | Some "r" => ["count"; "Rnorm"] | Some "t" => ["count"; "Tnorm"]
  | Some "d" => ["count"; "Dnorm"] | Some "cd" => ["count"; "CDnorm"] | Some "rd" => ["count"; "RDnorm"]
  | _ => []
  end%string.
Definition named (c : count_obj) (n : option string) : Prop := Some (l_tex (c_built c)) = count_tex n /\ l_path (c_built c) = count_path n.
Lemma upd_same {X} (l : list X) i x : (i < List.length l)%nat -> nth_error (upd l i x) i = Some x.
Proof.
  revert l. induction i as [|i IH]; intros [|a l] L; cbn in L; try lia; [reflexivity|]. change (upd (a :: l) (S i) x) with (a :: upd l i x). cbn [nth_error]. apply IH. lia.
Qed.
Lemma upd_other {X} (l : list X) i j x : i <> j -> nth_error (upd l i x) j = nth_error l j.
Proof.
  revert l j. induction i as [|i IH]; intros [|a l] j N; [destruct j; reflexivity| |destruct j; reflexivity|].
  - destruct j as [|j]; [congruence|reflexivity].
  - change (upd (a :: l) (S i) x) with (a :: upd l i x). destruct j as [|j]; [reflexivity|]. cbn [nth_error]. apply IH. congruence.
Qed.
Lemma upd_len {X} (l : list X) i x : List.length (upd l i x) = List.length l.
Proof. revert l. induction i as [|i IH]; intros [|a l]; try reflexivity. change (upd (a :: l) (S i) x) with (a :: upd l i x). cbn [List.length]. rewrite IH. reflexivity. Qed.
Lemma ok_inj {X} (a b : X) : Ok a = Ok b -> a = b.
Proof. congruence. Qed.
Lemma count_label_named n lab : count_label lower upper n None = Ok lab -> forall m, named (mkCount m lab) (option_map lower n).
Proof.
  unfold count_label. destruct (option_map lower n) as [a|] eqn:E; [|intros H m; apply ok_inj in H; subst lab; split; reflexivity].
  destruct (mem_str a (map fst trans_axnorm)) eqn:M; [|discriminate]. cbn [negb]. apply mem_str_In in M. cbn [map fst trans_axnorm In] in M.
  intros H m. apply ok_inj in H. subst lab. destruct M as [<-|[<-|[<-|[<-|[<-|[<-|[]]]]]]]; split; reflexivity.
Qed.
Lemma renorm_named h id n h' : (id < List.length h)%nat -> renorm h id n = Ok h' -> List.length h' = List.length h
  /\ (forall i, i <> id -> nth_error h' i = nth_error h i) /\ exists c, nth_error h' id = Some c /\ c_norm c = option_map lower n /\ named c (option_map lower n).
Proof.
  intros L E. unfold renorm in E. destruct (count_label lower upper n None) as [lab|] eqn:CL; [|discriminate]. cbn [bind] in E. apply ok_inj in E. subst h'.
  split; [apply upd_len|]. split; [intros i N; apply upd_other; congruence|]. eexists. split; [apply upd_same; exact L|]. split; [reflexivity|]. apply count_label_named. exact CL.
Qed.
Lemma lower_twice n : (match option_map lower n with None => true | Some a => mem_str a ["c"; "r"; "t"; "d"; "cd"; "rd"]%string end = true) -> option_map lower (option_map lower n) = option_map lower n.
Proof.
  destruct (option_map lower n) as [a|]; [|reflexivity]. intro M. apply mem_str_In in M. cbn [In] in M. destruct M as [<-|[<-|[<-|[<-|[<-|[<-|[]]]]]]]; reflexivity.
Qed.

(** What a user sees: histogram g of the session carries a Count label that says how it is normalised. *)
Definition says (s : session) (g : nat) : Prop :=
  forall x id, nth_error (s_hists s) g = Some x -> h_label x = CountObj id ->
  exists n c, h_norm x = Some n /\ nth_error (s_heap s) id = Some c /\ named c n.
(** no label object is given to two histograms *)
Definition polite (s : session) (e : event) : Prop :=
  match e with
  | Label2 g (CountObj id) => (id < List.length (s_heap s))%nat /\ forall g' x, nth_error (s_hists s) g' = Some x -> g' <> g -> h_label x <> CountObj id
  | _ => True
  end.
Inductive history : session -> Prop :=
| begin : history (mkSession [] [])
| go s e s' : history s -> polite s e -> step s e = Ok s' -> history s'.
(** the invariant: labels exist, are not shared, carry the normalisation *)
Record sound (s : session) : Prop := {
  so_in : forall g x id, nth_error (s_hists s) g = Some x -> h_label x = CountObj id -> (id < List.length (s_heap s))%nat;
  so_own : forall g g' x x' id, nth_error (s_hists s) g = Some x -> nth_error (s_hists s) g' = Some x' -> h_label x = CountObj id -> h_label x' = CountObj id -> g = g';
  so_norm : forall g x, nth_error (s_hists s) g = Some x -> exists n, h_norm x = Some (option_map lower n) /\ option_map lower (option_map lower n) = option_map lower n;
  so_says : forall g, says s g }.
Lemma nth_error_upd {X} (l : list X) i j x y : nth_error (upd l i x) j = Some y -> (j = i /\ y = x /\ (i < List.length l)%nat) \/ (j <> i /\ nth_error l j = Some y).
Proof.
  intro E. destruct (Nat.eq_dec j i) as [->|N]; [left|right; split; [exact N|]; rewrite upd_other in E by congruence; exact E].
  assert (L : (i < List.length l)%nat) by (rewrite <- (upd_len l i x); apply nth_error_Some; congruence). rewrite upd_same in E by exact L. split; [reflexivity|]. split; [congruence|exact L].
Qed.
Lemma axnorm_keeps h x n h' x' : set_axnorm2 h x n = Ok (h', x') -> (forall id, h_label x = CountObj id -> (id < List.length h)%nat) ->
  h_label x' = h_label x /\ h_norm x' = Some (option_map lower n) /\ option_map lower (option_map lower n) = option_map lower n /\ h_path x' = h_path x /\ List.length h' = List.length h
  /\ (forall i, h_label x <> CountObj i -> nth_error h' i = nth_error h i)
  /\ (forall id, h_label x = CountObj id -> exists c, nth_error h' id = Some c /\ named c (option_map lower n)).
Proof.
  intros E L. unfold set_axnorm2 in E. cbv zeta in E. destruct (match option_map lower n with None => true | Some a => mem_str a ["c"; "r"; "t"; "d"; "cd"; "rd"]%string end) eqn:M; [|discriminate].
  pose proof (lower_twice n M) as LT. destruct (h_label x) as [id|o] eqn:HL.
  - destruct (renorm h id (option_map lower n)) as [h1|] eqn:RN; [|discriminate]. cbn [bind] in E. apply ok_inj in E. assert (E1 := f_equal fst E). assert (E2 := f_equal snd E). cbn [fst snd] in E1, E2. subst h1 x'.
    destruct (renorm_named _ _ _ _ (L id eq_refl) RN) as (LH & RO & c & Ec & _ & Nc). rewrite LT in Nc. cbn [h_label h_norm h_path].
    split; [reflexivity|]. split; [reflexivity|]. split; [exact LT|]. split; [reflexivity|]. split; [exact LH|]. split; [intros i Ni; apply RO; congruence|]. intros id' Q. injection Q as <-. exists c. auto.
  - cbn [bind] in E. apply ok_inj in E. assert (E1 := f_equal fst E). assert (E2 := f_equal snd E). cbn [fst snd] in E1, E2. subst h' x'. cbn [h_label h_norm h_path].
    split; [reflexivity|]. split; [reflexivity|]. split; [exact LT|]. split; [reflexivity|]. split; [reflexivity|]. split; [reflexivity|]. intros id' Q. discriminate.
Qed.
Lemma label_keeps h x l h' x' n : set_label2 h x l = Ok (h', x') -> h_norm x = Some (option_map lower n) -> option_map lower (option_map lower n) = option_map lower n -> (forall id, l = CountObj id -> (id < List.length h)%nat) ->
  h_label x' = l /\ h_norm x' = h_norm x /\ h_path x' = path_part h' l /\ List.length h' = List.length h
  /\ (forall i, l <> CountObj i -> nth_error h' i = nth_error h i)
  /\ (forall id, l = CountObj id -> exists c, nth_error h' id = Some c /\ named c (option_map lower n)).
Proof.
  intros E HN LT L. unfold set_label2 in E. destruct l as [id|o].
  - rewrite HN in E. destruct (renorm h id (option_map lower n)) as [h1|] eqn:RN; [|discriminate]. cbn [bind] in E. apply ok_inj in E. assert (E1 := f_equal fst E). assert (E2 := f_equal snd E). cbn [fst snd] in E1, E2. subst h1 x'.
    destruct (renorm_named _ _ _ _ (L id eq_refl) RN) as (LH & RO & c & Ec & _ & Nc). rewrite LT in Nc. cbn [h_label h_norm h_path].
    split; [reflexivity|]. split; [symmetry; exact HN|]. split; [reflexivity|]. split; [exact LH|]. split; [intros i Ni; apply RO; congruence|]. intros id' Q. injection Q as <-. exists c. auto.
  - cbn [bind] in E. apply ok_inj in E. assert (E1 := f_equal fst E). assert (E2 := f_equal snd E). cbn [fst snd] in E1, E2. subst h' x'. cbn [h_label h_norm h_path].
    split; [reflexivity|]. split; [reflexivity|]. split; [reflexivity|]. split; [reflexivity|]. split; [reflexivity|]. intros id' Q. discriminate.
Qed.
Lemma new_label h h' x' l : set_label2 h (mkHist None (Other "z") []) l = Ok (h', x') -> (forall id, l = CountObj id -> (id < List.length h)%nat) ->
  h_label x' = l /\ List.length h' = List.length h /\ (forall i, l <> CountObj i -> nth_error h' i = nth_error h i).
Proof.
  intros E L. unfold set_label2 in E. cbn [h_norm] in E. destruct l as [id|o].
  - destruct (nth_error h id) as [c|] eqn:EC; [|exfalso; apply nth_error_None in EC; specialize (L id eq_refl); lia]. destruct (count_label lower upper (c_norm c) None) as [lab|] eqn:CL; [|discriminate].
    cbn [bind] in E. apply ok_inj in E. assert (E1 := f_equal fst E). assert (E2 := f_equal snd E). cbn [fst snd] in E1, E2. subst h' x'. cbn [h_label]. split; [reflexivity|]. split; [apply upd_len|]. intros i N. apply upd_other. congruence.
  - cbn [bind] in E. apply ok_inj in E. assert (E1 := f_equal fst E). assert (E2 := f_equal snd E). cbn [fst snd] in E1, E2. subst h' x'. cbn [h_label]. auto.
Qed.
Lemma nth_error_snoc {X} (l : list X) a i y : nth_error (l ++ [a]) i = Some y -> (i < List.length l)%nat /\ nth_error l i = Some y \/ i = List.length l /\ y = a.
Proof.
  intro E. destruct (Nat.lt_ge_cases i (List.length l)) as [L|L].
  - left. rewrite nth_error_app1 in E by exact L. auto.
  - right. rewrite nth_error_app2 in E by exact L. destruct (i - List.length l)%nat as [|k] eqn:D; [|destruct k; discriminate]. split; [lia|]. cbn in E. congruence.
Qed.
Lemma sound_step s e s' : sound s -> polite s e -> step s e = Ok s' -> sound s'.
Proof.
  intros [SI SO SN SS] P E. destruct e as [n|weighted n|g n|g l]; cbn [step] in E.
  - destruct (count_label lower upper n None) as [lab|]; [|discriminate]. cbn [bind] in E. apply ok_inj in E. subst s'. constructor; cbn [s_heap s_hists].
    + intros g x id A B. rewrite app_length. specialize (SI g x id A B). lia.
    + exact SO.
    + exact SN.
    + intros g x id A B. cbn [s_heap s_hists] in *. destruct (SS g x id A B) as (m & c & H1 & H2 & H3). exists m, c. split; [exact H1|]. split; [|exact H3]. rewrite nth_error_app1; [exact H2|]. apply nth_error_Some. congruence.
  - assert (N : exists h1 l1 h2 x2 h3 x3, set_label2 h1 (mkHist None (Other "z") []) l1 = Ok (h2, x2) /\ set_axnorm2 h2 x2 n = Ok (h3, x3) /\ s' = mkSession h3 (s_hists s ++ [x3])
        /\ (forall i, (i < List.length (s_heap s))%nat -> nth_error h1 i = nth_error (s_heap s) i) /\ (List.length (s_heap s) <= List.length h1)%nat
        /\ (forall id, l1 = CountObj id -> id = List.length (s_heap s) /\ (id < List.length h1)%nat)).
    { destruct weighted.
      - cbn [bind fst snd] in E. destruct (set_label2 (s_heap s) (mkHist None (Other "z") []) (Other "z")) as [[h2 x2]|] eqn:E2; [|discriminate]. cbn [bind fst snd] in E.
        destruct (set_axnorm2 h2 x2 n) as [[h3 x3]|] eqn:E3; [|discriminate]. cbn [bind fst snd] in E. apply ok_inj in E.
        exists (s_heap s), (Other "z"), h2, x2, h3, x3. split; [exact E2|]. split; [exact E3|]. split; [congruence|]. split; [reflexivity|]. split; [lia|]. intros id Q. discriminate.
      - destruct (count_label lower upper n None) as [lab|]; [|discriminate]. cbn [bind fst snd] in E. set (h1 := s_heap s ++ [mkCount (option_map lower n) lab]) in *. set (l1 := CountObj (List.length (s_heap s))) in *.
        destruct (set_label2 h1 (mkHist None (Other "z") []) l1) as [[h2 x2]|] eqn:E2; [|discriminate]. cbn [bind fst snd] in E.
        destruct (set_axnorm2 h2 x2 n) as [[h3 x3]|] eqn:E3; [|discriminate]. cbn [bind fst snd] in E. apply ok_inj in E.
        assert (LH : List.length h1 = S (List.length (s_heap s))) by (unfold h1; rewrite app_length; cbn; lia).
        exists h1, l1, h2, x2, h3, x3. split; [exact E2|]. split; [exact E3|]. split; [congruence|]. split; [intros i Li; unfold h1; rewrite nth_error_app1 by exact Li; reflexivity|]. split; [lia|].
        intros id Q. unfold l1 in Q. injection Q as <-. lia. }
    destruct N as (h1 & l1 & h2 & x2 & h3 & x3 & E2 & E3 & -> & HH & HL & HI). clear E.
    destruct (new_label _ _ _ _ E2 (fun id Q => proj2 (HI id Q))) as (L2 & N2 & O2).
    assert (LI2 : forall id, h_label x2 = CountObj id -> (id < List.length h2)%nat) by (intros id Q; rewrite L2 in Q; rewrite N2; apply HI; exact Q).
    destruct (axnorm_keeps _ _ _ _ _ E3 LI2) as (L3 & NM & LT & _ & N3 & O3 & S3).
    assert (OLD : forall i, (i < List.length (s_heap s))%nat -> nth_error h3 i = nth_error (s_heap s) i).
    { intros i Li. assert (NI : l1 <> CountObj i) by (intro Q; destruct (HI i Q); lia). rewrite O3 by (rewrite L2; exact NI). rewrite O2 by exact NI. apply HH. exact Li. }
    constructor; cbn [s_heap s_hists].
    + intros g x id A B. destruct (nth_error_snoc _ _ _ _ A) as [[_ A']|[-> ->]]; [specialize (SI g x id A' B); lia|]. rewrite N3, N2. rewrite L3, L2 in B. apply HI. exact B.
    + intros g g' x x' id A A' B B'. destruct (nth_error_snoc _ _ _ _ A) as [[_ A1]|[-> ->]]; destruct (nth_error_snoc _ _ _ _ A') as [[_ A2]|[-> ->]]; [eapply SO; eauto| | |reflexivity]; exfalso.
      * rewrite L3, L2 in B'. destruct (HI id B') as [Q _]. specialize (SI g x id A1 B). lia.
      * rewrite L3, L2 in B. destruct (HI id B) as [Q _]. specialize (SI g' x' id A2 B'). lia.
    + intros g x A. destruct (nth_error_snoc _ _ _ _ A) as [[_ A']|[-> ->]]; [eapply SN; eauto|]. exists n. auto.
    + intros g x id A B. cbn [s_heap s_hists] in *. destruct (nth_error_snoc _ _ _ _ A) as [[_ A']|[-> ->]].
      * destruct (SS g x id A' B) as (m & c & H1 & H2 & H3). exists m, c. split; [exact H1|]. split; [|exact H3]. rewrite OLD by (eapply SI; eauto). exact H2.
      * rewrite L3 in B. destruct (S3 id B) as (c & Ec & Nc). exists (option_map lower n), c. auto.
  - unfold on_hist in E. destruct (nth_error (s_hists s) g) as [x|] eqn:EX; [|discriminate]. destruct (set_axnorm2 (s_heap s) x n) as [[h' x']|] eqn:E3; [|discriminate]. cbn [bind fst snd] in E. apply ok_inj in E. subst s'.
    destruct (axnorm_keeps _ _ _ _ _ E3 (fun id Q => SI g x id EX Q)) as (L3 & NM & LT & _ & N3 & O3 & S3).
    constructor; cbn [s_heap s_hists].
    + intros g1 x1 id A B. rewrite N3. destruct (nth_error_upd _ _ _ _ _ A) as [(-> & -> & _)|(N & A')]; [rewrite L3 in B; eapply SI; eauto|eapply SI; eauto].
    + intros g1 g2 x1 x2 id A1 A2 B1 B2. destruct (nth_error_upd _ _ _ _ _ A1) as [(-> & -> & _)|(Na & A1')]; destruct (nth_error_upd _ _ _ _ _ A2) as [(-> & -> & _)|(Nb & A2')]; rewrite ?L3 in *; [reflexivity|eapply SO; eauto..].
    + intros g1 x1 A. destruct (nth_error_upd _ _ _ _ _ A) as [(-> & -> & _)|(N & A')]; [exists n; auto|eapply SN; eauto].
    + intros g1 x1 id A B. cbn [s_heap s_hists] in *. destruct (nth_error_upd _ _ _ _ _ A) as [(-> & -> & _)|(N & A')].
      * rewrite L3 in B. destruct (S3 id B) as (c & Ec & Nc). exists (option_map lower n), c. auto.
      * destruct (SS g1 x1 id A' B) as (m & c & H1 & H2 & H3). exists m, c. split; [exact H1|]. split; [|exact H3]. rewrite O3; [exact H2|]. intro Q. apply N. eapply SO; eauto.
  - unfold on_hist in E. destruct (nth_error (s_hists s) g) as [x|] eqn:EX; [|discriminate]. destruct (set_label2 (s_heap s) x l) as [[h' x']|] eqn:E3; [|discriminate]. cbn [bind fst snd] in E. apply ok_inj in E. subst s'.
    destruct (SN g x EX) as (n & HN & LT).
    assert (PI : forall id, l = CountObj id -> (id < List.length (s_heap s))%nat) by (intros id ->; apply P).
    assert (PO : forall g' y id, l = CountObj id -> nth_error (s_hists s) g' = Some y -> g' <> g -> h_label y <> CountObj id) by (intros g' y id -> A N; destruct P as [_ P]; eapply P; eauto).
    destruct (label_keeps _ _ _ _ _ n E3 HN LT PI) as (L3 & NM & _ & N3 & O3 & S3).
    constructor; cbn [s_heap s_hists].
    + intros g1 x1 id A B. rewrite N3. destruct (nth_error_upd _ _ _ _ _ A) as [(-> & -> & _)|(N & A')]; [rewrite L3 in B; apply PI; exact B|eapply SI; eauto].
    + intros g1 g2 x1 x2 id A1 A2 B1 B2. destruct (nth_error_upd _ _ _ _ _ A1) as [(-> & -> & _)|(Na & A1')]; destruct (nth_error_upd _ _ _ _ _ A2) as [(-> & -> & _)|(Nb & A2')]; [reflexivity| | |eapply SO; eauto]; exfalso; rewrite L3 in *.
      * eapply PO; eauto.
      * eapply PO; eauto.
    + intros g1 x1 A. destruct (nth_error_upd _ _ _ _ _ A) as [(-> & -> & _)|(N & A')]; [exists n; rewrite NM; auto|eapply SN; eauto].
    + intros g1 x1 id A B. cbn [s_heap s_hists] in *. destruct (nth_error_upd _ _ _ _ _ A) as [(-> & -> & _)|(N & A')].
      * rewrite L3 in B. destruct (S3 id B) as (c & Ec & Nc). exists (option_map lower n), c. rewrite NM. auto.
      * destruct (SS g1 x1 id A' B) as (m & c & H1 & H2 & H3). exists m, c. split; [exact H1|]. split; [|exact H3]. rewrite O3; [exact H2|]. intro Q. eapply PO; eauto.
Qed.
(** Through any history in which no label object is given to two histograms, every count label says how its histogram is normalised. *)
Theorem C195_label_names_normalisation_partial : forall s g, history s -> says s g.
Proof.
  intros s g H. assert (S : sound s); [|apply (so_says _ S)]. induction H as [|s e s' _ IH P E]; [|eapply sound_step; eauto].
  constructor; cbn [s_heap s_hists]; intros; try (destruct g0; discriminate).
Qed.
(** One Count object labelling two histograms: normalising one relabels the other. *)
Theorem C195_shared_label_refuted : exists s x c,
  run [NewHist2 false None; NewHist2 false None; NewCount None; Label2 0 (CountObj 2); Label2 1 (CountObj 2); Axnorm2 1 (Some "r")] (mkSession [] []) = Ok s
  /\ nth_error (s_hists s) 0 = Some x /\ h_norm x = Some None /\ h_label x = CountObj 2 /\ nth_error (s_heap s) 2 = Some c
  /\ l_tex (c_built c) = "\mathrm{Row \, Norm \, Count}"%string.
Proof.
  destruct (run [NewHist2 false None; NewHist2 false None; NewCount None; Label2 0 (CountObj 2); Label2 1 (CountObj 2); Axnorm2 1 (Some "r")]%string (mkSession [] [])) as [s|] eqn:E; [|vm_compute in E; discriminate E].
  vm_compute in E. apply ok_inj in E. subst s. do 3 eexists. split; [reflexivity|]. cbn [s_hists s_heap nth_error]. repeat (split; [reflexivity|]). reflexivity.
Qed.
(** set_axnorm never touches the path the figure will be saved under... *)
Theorem C195_axnorm_keeps_the_path_refuted : forall s g n s' x x', history s -> step s (Axnorm2 g n) = Ok s' ->
  nth_error (s_hists s) g = Some x -> nth_error (s_hists s') g = Some x' -> h_path x' = h_path x.
Proof.
  intros s g n s' x x' _ E A A'. cbn [step] in E. unfold on_hist in E. rewrite A in E. destruct (set_axnorm2 (s_heap s) x n) as [[h' y]|] eqn:E3; [|discriminate]. cbn [bind fst snd] in E. apply ok_inj in E. subst s'.
  cbn [s_hists] in A'. rewrite upd_same in A' by (apply nth_error_Some; congruence). injection A' as <-.
  unfold set_axnorm2 in E3. cbv zeta in E3. destruct (match option_map lower n with None => true | Some a => mem_str a ["c"; "r"; "t"; "d"; "cd"; "rd"]%string end); [|discriminate].
  destruct (match h_label x with CountObj id => renorm (s_heap s) id (option_map lower n) | Other _ => Ok (s_heap s) end) as [h1|]; [|discriminate]. cbn [bind] in E3. apply ok_inj in E3. assert (E2 := f_equal snd E3). cbn [snd] in E2. subst y. reflexivity.
Qed.
(** ... so a histogram normalised after it was made is filed under "count"; *)
Theorem C195_stale_path_refuted : exists s x c,
  run [NewHist2 false None; Axnorm2 0 (Some "c")] (mkSession [] []) = Ok s /\ nth_error (s_hists s) 0 = Some x /\ h_norm x = Some (Some "c"%string)
  /\ h_path x = ["count"%string] /\ h_label x = CountObj 0 /\ nth_error (s_heap s) 0 = Some c /\ l_path (c_built c) = ["count"; "Cnorm"]%string.
Proof.
  destruct (run [NewHist2 false None; Axnorm2 0 (Some "c")]%string (mkSession [] [])) as [s|] eqn:E; [|vm_compute in E; discriminate E].
  vm_compute in E. apply ok_inj in E. subst s. do 3 eexists. split; [reflexivity|]. cbn [s_hists s_heap nth_error]. repeat (split; [reflexivity|]). reflexivity.
Qed.
(** set_labels(z=...) brings both label and path up to date, whatever happened before. *)
Theorem C195_set_labels_refreshes : forall s g id s', history s -> polite s (Label2 g (CountObj id)) -> step s (Label2 g (CountObj id)) = Ok s' ->
  exists x n c, nth_error (s_hists s') g = Some x /\ h_label x = CountObj id /\ h_norm x = Some n /\ nth_error (s_heap s') id = Some c /\ named c n /\ h_path x = count_path n.
Proof.
  intros s g id s' H P E. assert (H' : history s') by (eapply go; eauto).
  cbn [step] in E. unfold on_hist in E. destruct (nth_error (s_hists s) g) as [x|] eqn:EX; [|discriminate].
  assert (SD : sound s). { clear - H. induction H as [|s e s' _ IH P E]; [constructor; cbn [s_heap s_hists]; intros; try (destruct g; discriminate)|eapply sound_step; eauto]. }
  destruct (so_norm _ SD g x EX) as (n & HN & LT).
  destruct (set_label2 (s_heap s) x (CountObj id)) as [[h' y]|] eqn:E3; [|discriminate]. cbn [bind fst snd] in E. apply ok_inj in E. subst s'.
  destruct (label_keeps _ _ _ _ _ n E3 HN LT) as (L3 & NM & PP & _ & _ & S3); [intros id' Q; injection Q as <-; apply P|].
  destruct (S3 id eq_refl) as (c & Ec & Nc). exists y, (option_map lower n), c. cbn [s_heap s_hists]. split; [apply upd_same; apply nth_error_Some; congruence|]. split; [exact L3|]. split; [congruence|]. split; [exact Ec|]. split; [exact Nc|].
  rewrite PP. cbn [path_part]. rewrite Ec. apply Nc.
Qed.
Ltac advance e :=
  match goal with H : history ?s |- _ =>
    let r := eval vm_compute in (step s e) in
    match r with Ok ?s' =>
      let H' := fresh in assert (H' : history s') by (apply (go s e s' H); [first [exact Logic.I|split; [cbn; lia|]; let g := fresh "g" in let A := fresh "A" in intros [|[|g]] ? A ?; cbn in A; [injection A as <-; discriminate|congruence|destruct g; discriminate]]|vm_compute; reflexivity]); clear H; rename H' into H
    end
  end.
Example C195_ex : exists s x n c, history s /\ nth_error (s_hists s) 1 = Some x /\ h_label x = CountObj 2 /\ h_norm x = Some n /\ nth_error (s_heap s) 2 = Some c /\ named c n /\ n = Some "t"%string.
Proof.
  pose proof begin as H. advance (NewHist2 false None). advance (NewHist2 false (Some "D"%string)). advance (NewCount None). advance (Axnorm2 0 (Some "c"%string)). advance (Label2 1 (CountObj 2)). advance (Axnorm2 1 (Some "T"%string)).
  match type of H with history ?s => exists s end. do 3 eexists. split; [exact H|]. cbn [s_hists s_heap nth_error]. split; [reflexivity|]. cbn [h_label h_norm]. split; [reflexivity|]. split; [reflexivity|]. split; [reflexivity|]. split; [split; reflexivity|reflexivity].
Qed.
(** One-dimensional histograms: any accepted normalisation names itself... *)
Theorem C195_hist1d_axnorm : forall h x id n h' x', h_label x = CountObj id -> (id < List.length h)%nat -> set_axnorm1 h x n = Ok (h', x') ->
  exists m c, (m = None \/ m = Some "d"%string) /\ (m = None <-> n = None) /\ h_norm x' = Some m /\ h_label x' = CountObj id /\ nth_error h' id = Some c /\ named c m.
Proof.
  intros h x id n h' x' HL LI E. unfold set_axnorm1 in E.
  assert (Q : exists m, (m = None \/ m = Some "d"%string) /\ (m = None <-> n = None) /\ exists h1, renorm h id m = Ok h1 /\ h1 = h' /\ mkHist (Some m) (h_label x) (h_path x) = x').
  { destruct n as [a|].
    - destruct (rmap Some (first_letter (lower a))) as [m|] eqn:F; [|discriminate]. cbn [bind] in E. exists m.
      destruct (lower a) as [|ch r]; [discriminate|]. cbn [first_letter rmap bind] in F. apply ok_inj in F. subst m. destruct (String.eqb (String ch EmptyString) "d") eqn:D; [|discriminate]. apply String.eqb_eq in D. rewrite D in *.
      split; [right; reflexivity|]. split; [split; discriminate|]. rewrite HL in E. destruct (renorm h id (Some "d"%string)) as [h1|]; [|discriminate]. cbn [bind] in E. apply ok_inj in E. exists h1. split; [reflexivity|]. rewrite HL. split; congruence.
    - cbn [bind] in E. exists None. split; [left; reflexivity|]. split; [tauto|]. rewrite HL in E. destruct (renorm h id None) as [h1|]; [|discriminate]. cbn [bind] in E. apply ok_inj in E. exists h1. split; [reflexivity|]. rewrite HL. split; congruence. }
  destruct Q as (m & M & MN & h1 & RN & -> & <-). destruct (renorm_named _ _ _ _ LI RN) as (_ & _ & c & Ec & _ & Nc). exists m, c. split; [exact M|]. split; [exact MN|]. split; [reflexivity|]. split; [exact HL|]. split; [exact Ec|].
  destruct M as [-> | ->]; exact Nc.
Qed.
(** ... but the spelled-out "density" that set_axnorm accepts cannot be given to the constructor (unless there is a y), *)
Theorem C195_density_by_name_refuted : new_hist1 false (Some "density"%string) = Err AssertionError
  /\ (exists r, new_hist1 true (Some "density"%string) = Ok r) /\ exists r, set_axnorm1 [] (mkHist None (Other "y") []) (Some "density"%string) = Ok r.
Proof. split; [reflexivity|]. split; eexists; reflexivity. Qed.
(** and a new Count label on a density histogram keeps saying "Count". *)
Theorem C195_hist1d_label_refuted : exists r lab r', new_hist1 false (Some "d"%string) = Ok r /\ count_label lower upper None None = Ok lab
  /\ set_label1 (fst r ++ [mkCount None lab]) (snd r) (CountObj 1) = Ok r' /\ h_norm (snd r') = Some (Some "d"%string)
  /\ exists c, nth_error (fst r') 1 = Some c /\ l_tex (c_built c) = "\mathrm{Count}"%string.
Proof.
  destruct (new_hist1 false (Some "d"%string)) as [r|] eqn:E; [|vm_compute in E; discriminate E]. destruct (count_label lower upper None None) as [lab|] eqn:EL; [|vm_compute in EL; discriminate EL].
  vm_compute in E, EL. apply ok_inj in E, EL. subst r lab. do 3 eexists. split; [reflexivity|]. split; [reflexivity|]. split; [reflexivity|]. split; [reflexivity|]. eexists. split; reflexivity.
Qed.
