(** Histograms, continued: cumulative distributions, automatic bins, borders, projections, box selection. *)
From Coq Require Import Reals List Bool Arith ZArith Lra Lia Permutation Sorted String Psatz.
From Flocq Require Import Core.Raux Core.Generic_fmt Core.Round_NE.
From Verif Require Import Py Num Sort Activity ActivityThms FitFuncsThms Hist HistThms.
Import ListNotations.
Open Scope R_scope.

(* ------------------------------------------------------------------ cumulative distribution *)
Definition delog (lg : bool) (x : R) : R := if lg then Rpower 10 x else x.
Lemma sort_fin l : sort_by aleb (map Fin l) = map Fin (sort_by Rleb l).
Proof.
  induction l as [|x l IH]; [reflexivity|]. cbn [map sort_by]. rewrite IH. generalize (sort_by Rleb l). clear.
  induction l as [|y l IH]; [reflexivity|]. cbn [map insert_by]. rewrite fin_leb. destruct (Rleb x y); [reflexivity|]. cbn [map]. rewrite IH. reflexivity.
Qed.
Lemma Rleb_total a b : Rleb a b = true \/ Rleb b a = true.
Proof. rewrite !Rleb_true. lra. Qed.
Lemma Rleb_trans a b c : Rleb a b = true -> Rleb b c = true -> Rleb a c = true.
Proof. rewrite !Rleb_true. lra. Qed.
Lemma finite_list (l : list XR) : (forall v, In v l -> exists x, v = Fin x) -> exists l', l = map Fin l'.
Proof.
  induction l as [|v l IH]; intro H; [exists []; reflexivity|]. destruct IH as [l' ->]; [intros; apply H; right; assumption|].
  destruct (H v) as [x ->]; [left; reflexivity|]. exists (x :: l'). reflexivity.
Qed.
Lemma delog_mono lg x y : x <= y -> delog lg x <= delog lg y.
Proof.
  intro H. unfold delog. destruct lg; [|exact H]. unfold Rpower. assert (0 < ln 10) by (rewrite <- ln_1; apply ln_increasing; lra).
  destruct (Req_dec x y) as [->|N]; [apply Rle_refl|]. apply Rlt_le, exp_increasing. apply Rmult_lt_compat_r; lra.
Qed.
(** The rows that enter: coordinate inside the edges and, if asked, in a bin that is shown. *)
Definition entering (e : list R) (tk : list bool) (data : list (XR * XR)) : list XR :=
  map (fun p => fst (fst p)) (filter (fun p => range e (fst (fst p)) && snd p) (combine data tk)).
(** C76: the abscissae are the entering values in increasing order (each once per datum), the ordinates run in equal steps from 0 to 1. *)
Theorem C76_cdf : forall (lg : bool) clim norm (e : list R) only data out tk, ordered e ->
  construct_cdf lg clim norm (map Fin e) only data = Ok out ->
  (if only then plotted_series1 lg norm clim (map Fin e) data = Ok tk else tk = map (fun _ => true) data) ->
  exists xs, Permutation (map Fin xs) (entering e tk data) /\ StronglySorted Rle xs
    /\ map fst out = map (fun x => Fin (delog lg x)) xs /\ StronglySorted Rle (map (delog lg) xs)
    /\ List.length out = List.length (entering e tk data)
    /\ ((2 <= List.length out)%nat -> forall i p, nth_error (map snd out) i = Some p -> p = Fin (INR i / INR (List.length out - 1)))
    /\ ((2 <= List.length out)%nat -> nth_error (map snd out) 0 = Some (Fin 0) /\ nth_error (map snd out) (List.length out - 1) = Some (Fin 1)).
Proof.
  intros lg clim norm e only data out tk O E TK. unfold construct_cdf in E.
  destruct (negb _) in E; [discriminate|].
  replace (if only then plotted_series1 lg norm clim (map Fin e) data else Ok (map (fun _ => true) data)) with (@Ok (list bool) tk) in E
    by (destruct only; [symmetry; exact TK|rewrite TK; reflexivity]).
  cbn [bind] in E. injection E as <-.
  set (x := map fst (map fst (filter _ (combine data tk)))).
  assert (X : x = entering e tk data).
  { unfold x, entering. rewrite map_map. f_equal. apply filter_ext. intros [[v y] b]. cbn [fst snd]. f_equal.
    destruct (cut (map Fin e) v) as [i|] eqn:C.
    - destruct (range e v) eqn:B; [reflexivity|]. apply cut_none in B; [|exact O]. congruence.
    - apply cut_none in C; [|exact O]. congruence. }
  rewrite X. clear x X.
  destruct (finite_list (entering e tk data)) as [l El].
  { intros v I. unfold entering in I. apply in_map_iff in I. destruct I as [p [<- I]]. apply filter_In in I. destruct I as [_ I].
    apply andb_prop in I. destruct I as [I _]. unfold range in I. rewrite inb_true in I. destruct I as [y [-> _]]. eauto. }
  rewrite El, sort_fin, !map_map, !map_length. set (xs := sort_by Rleb l). set (n := List.length xs).
  assert (NL : n = List.length l) by (apply sort_by_length).
  assert (ML : List.length (combine (map (fun v => if lg then exp10 (Fin v) else Fin v) xs) (map (fun i => adiv (ofnat i) (ofnat (n - 1))) (seq 0 n))) = n).
  { rewrite combine_length, !map_length, seq_length. fold n. lia. }
  assert (SS : StronglySorted Rle xs).
  { pose proof (sort_by_sorted Rleb Rleb_total Rleb_trans l) as S0. fold xs in S0. clear - S0. induction S0 as [|a l0 S0 IH F]; constructor; [exact IH|].
    eapply Forall_impl; [|exact F]. intros b Hb. apply Rleb_true. exact Hb. }
  exists xs. split; [|split; [exact SS|split; [|split; [|split; [rewrite ML; exact NL|]]]]].
  - apply Permutation_map. apply sort_by_perm.
  - assert (G : forall {A B} (a : list A) (b : list B), List.length a = List.length b -> map fst (combine a b) = a).
    { clear. induction a as [|x a IH]; intros [|y b] H; try discriminate; [reflexivity|]. cbn. f_equal. apply IH. cbn in H. lia. }
    rewrite G by (rewrite !map_length, seq_length; reflexivity). apply map_ext. intro v. unfold delog. destruct lg; [apply exp10_fin|reflexivity].
  - clear - SS. induction SS as [|a l0 S0 IH F]; [constructor|]. cbn [map]. constructor; [exact IH|].
    apply Forall_map. eapply Forall_impl; [|exact F]. intros b Hb. apply delog_mono. exact Hb.
  - rewrite ML.
    assert (G : map snd (combine (map (fun v => if lg then exp10 (Fin v) else Fin v) xs) (map (fun i => adiv (ofnat i) (ofnat (n - 1))) (seq 0 n))) = map (fun i => adiv (ofnat i) (ofnat (n - 1))) (seq 0 n)).
    { assert (G : forall {A B} (a : list A) (b : list B), List.length a = List.length b -> map snd (combine a b) = b).
      { clear. induction a as [|x a IH]; intros [|y b] H; try discriminate; [reflexivity|]. cbn. f_equal. apply IH. cbn in H. lia. }
      apply G. rewrite !map_length, seq_length. reflexivity. }
    rewrite G.
    assert (P : (2 <= n)%nat -> forall i, (i < n)%nat -> nth_error (map (fun i => adiv (ofnat i) (ofnat (n - 1)) : XR) (seq 0 n)) i = Some (Fin (INR i / INR (n - 1)))).
    { intros L i Hi. assert (N0 : INR (n - 1) <> 0) by (apply not_0_INR; lia).
      rewrite nth_error_map, (nth_error_nth' (seq 0 n) 0%nat) by (rewrite seq_length; lia). rewrite seq_nth by lia. cbn [option_map]. f_equal.
      unfold ofnat. rewrite !fin_ofZ, <- !INR_IZR_INZ. apply fin_div. exact N0. }
    split.
    + intros L i p H. assert (Hi : (i < n)%nat) by (rewrite <- (seq_length n 0), <- (map_length (fun i => adiv (ofnat i) (ofnat (n - 1)) : XR)); apply nth_error_Some; congruence).
      rewrite (P L i Hi) in H. congruence.
    + intro L. assert (N0 : INR (n - 1) <> 0) by (apply not_0_INR; lia). split; (rewrite P by lia); do 2 f_equal; cbn [INR]; field; exact N0.
Qed.
(** C76: with a single datum there is no position at all. *)
Theorem C76_single_datum_refuted : exists out, construct_cdf false nolim N1None (map Fin [0; 2]) false (set_data1 false [Fin 1] None) = Ok out
  /\ out = [(Fin 1, NaN)].
Proof.
  assert (C : cut (map Fin [0; 2]) (Fin 1) = Some 0%nat).
  { apply cut_some.
    - intros i j H. cbn [List.length] in H. destruct j as [|[|j]]; [| |lia]; destruct i as [|[|i]]; try lia; cbn; lra.
    - split; [cbn; lia|]. unfold bin, inb. cbn [nth]. decb. reflexivity. }
  eexists. split; [|reflexivity]. unfold construct_cdf, set_data1. rewrite fin_a1.
  cbn [combine map fst snd existsb filter bind]. change [Fin 0; Fin 2] with (map Fin [0; 2]). rewrite C.
  change (aisnan (Fin 1)) with false. change (notnan (Fin 1)) with true.
  cbn [orb andb distinct existsb app List.length Nat.leb negb bind map fst snd sort_by insert_by Nat.sub seq combine].
  unfold ofnat. rewrite !fin_ofZ. cbn [Z.of_nat]. change (adiv (Fin 0) (Fin 0)) with (xdiv (Fin 0) (Fin 0)). unfold xdiv.
  replace (Reqb 0 0) with true by (symmetry; apply Reqb_true; reflexivity). unfold inf_sign. decb. reflexivity.
Qed.

(* ------------------------------------------------------------------ automatic bins *)
(** C123. rounding to [d] = 10^-k steps, half to even, as numpy's round *)
Definition round_to (steps : Z) (x : XR) : XR := match x with Fin r => Fin (IZR (ZnearestE (r * IZR steps)) / IZR steps) | _ => x end.
Definition five_digits : XR -> XR := round_to 100000.
Lemma round_mono steps a b : (0 < steps)%Z -> a <= b -> IZR (ZnearestE (a * IZR steps)) / IZR steps <= IZR (ZnearestE (b * IZR steps)) / IZR steps.
Proof.
  intros S H. apply IZR_lt in S. unfold Rdiv. apply Rmult_le_compat_r; [apply Rlt_le, Rinv_0_lt_compat, S|]. apply IZR_le.
  apply (@Zrnd_le ZnearestE _). apply Rmult_le_compat_r; lra.
Qed.
Lemma round_int steps z : (0 < steps)%Z -> round_to steps (Fin (IZR z)) = Fin (IZR z).
Proof.
  intro S. unfold round_to. rewrite <- mult_IZR, (@Zrnd_IZR ZnearestE _), mult_IZR. f_equal. apply IZR_lt in S. field. lra.
Qed.
Lemma finite_fin (l : list R) : finite (map Fin l) = map Fin l.
Proof. unfold finite. induction l as [|x l IH]; [reflexivity|]. cbn [map filter]. change (aisfin (Fin x)) with true. cbn iota. rewrite IH. reflexivity. Qed.
Lemma map_cell_some l : map Fin l = map cell (map Some l). Proof. rewrite map_map. reflexivity. Qed.
Lemma present_some l : present (map Some l) = l.
Proof. induction l as [|x l IH]; [reflexivity|]. cbn [map]. rewrite present_cons, IH. reflexivity. Qed.
(** the edges before rounding: n+1 equally spaced points *)
Definition even_edges (lo hi : R) (n : nat) : list R := map (fun i => lo + INR i * ((hi - lo) / INR n)) (seq 0 (S n)).
Lemma linspace_fin lo hi n : (0 < n)%nat -> linspace (Fin lo) (Fin hi) n = map Fin (even_edges lo hi n).
Proof.
  intro P. assert (N0 : INR n <> 0) by (apply not_0_INR; lia). unfold linspace, even_edges. rewrite map_map. apply map_ext. intro i.
  destruct (Nat.eqb i n) eqn:E.
  - apply Nat.eqb_eq in E. subst. f_equal. field. exact N0.
  - unfold ofnat. rewrite !fin_ofZ, <- !INR_IZR_INZ, fin_sub, fin_div, fin_mul, fin_add by exact N0. reflexivity.
Qed.
Lemma even_edges_ordered lo hi n : lo <= hi -> (0 < n)%nat -> forall i j, (i <= j < S n)%nat -> nth i (even_edges lo hi n) 0 <= nth j (even_edges lo hi n) 0.
Proof.
  intros H P i j L. unfold even_edges.
  assert (X : forall k, (k < S n)%nat -> nth k (map (fun i => lo + INR i * ((hi - lo) / INR n)) (seq 0 (S n))) 0 = lo + INR k * ((hi - lo) / INR n)).
  { intros k Lk. rewrite (nth_indep _ 0 ((fun i => lo + INR i * ((hi - lo) / INR n)) 0%nat)) by (rewrite map_length, seq_length; exact Lk).
    rewrite (map_nth (fun i => lo + INR i * ((hi - lo) / INR n))), seq_nth by exact Lk. reflexivity. }
  rewrite !X by lia. assert (0 <= (hi - lo) / INR n) by (apply Rmult_le_pos; [lra|]; apply Rlt_le, Rinv_0_lt_compat, lt_0_INR; exact P).
  assert (INR i <= INR j) by (apply le_INR; lia). apply Rplus_le_compat_l, Rmult_le_compat_r; assumption.
Qed.
Lemma even_first lo hi n : nth 0 (even_edges lo hi n) 0 = lo.
Proof. unfold even_edges. cbn [seq map nth INR]. lra. Qed.
Lemma even_last lo hi n : (0 < n)%nat -> nth n (even_edges lo hi n) 0 = hi.
Proof.
  intro P. unfold even_edges. rewrite (nth_indep _ 0 ((fun i => lo + INR i * ((hi - lo) / INR n)) 0%nat)) by (rewrite map_length, seq_length; lia).
  rewrite (map_nth (fun i => lo + INR i * ((hi - lo) / INR n))), seq_nth by lia. cbn [plus]. field. apply not_0_INR. lia.
Qed.
(** smallest and largest of the finite data *)
Lemma auto_edges (l : list R) lo hi n steps : (0 < n)%nat -> is_bottom lo l -> is_top hi l -> lo < hi ->
  bin_edges (round_to steps) (NInt n) (map Fin l) = Ok (map Fin (map (fun r => IZR (ZnearestE (r * IZR steps)) / IZR steps) (even_edges lo hi n))).
Proof.
  intros P B T L. unfold bin_edges. rewrite finite_fin. destruct n as [|n]; [lia|].
  assert (NE : l <> []) by (intro Z; subst; destruct B as [[] _]).
  assert (O : outer_edges (map Fin l) = (Fin lo, Fin hi)).
  { unfold outer_edges. destruct (map Fin l) as [|v0 vs] eqn:E; [destruct l; [contradiction|discriminate]|]. rewrite <- E, map_cell_some.
    destruct (series_min_fin (map Some l)) as [a [Ea Ba]]; [rewrite present_some; exact NE|].
    destruct (series_max_fin (map Some l)) as [b [Eb Bb]]; [rewrite present_some; exact NE|]. rewrite present_some in *.
    rewrite Ea, Eb. rewrite (bottom_unique a lo l Ba B), (top_unique b hi l Bb T). rewrite fin_eqb.
    replace (Reqb lo hi) with false by (symmetry; apply Reqb_false; lra). reflexivity. }
  rewrite O, linspace_fin by lia. cbn [bind]. f_equal. rewrite !map_map. reflexivity.
Qed.
Lemma round_edges_ordered lo hi n steps : (0 < steps)%Z -> lo <= hi -> (0 < n)%nat -> ordered (map (fun r => IZR (ZnearestE (r * IZR steps)) / IZR steps) (even_edges lo hi n)).
Proof.
  intros St H P i j L. rewrite map_length in L. unfold even_edges in L at 1. rewrite map_length, seq_length in L.
  set (f := fun r => IZR (ZnearestE (r * IZR steps)) / IZR steps).
  assert (LE : List.length (even_edges lo hi n) = S n) by (unfold even_edges; rewrite map_length, seq_length; reflexivity).
  rewrite !(nth_indep (map f _) 0 (f 0)) by (rewrite map_length; lia). rewrite !(map_nth f). apply round_mono; [exact St|].
  apply even_edges_ordered; auto.
Qed.
(** With an integer number of bins, a value has a bin exactly when it lies strictly above the rounded smallest value and at most at the
    rounded largest one ... *)
Theorem C123_automatic_bins_partial : forall (l : list R) lo hi n b x, (0 < n)%nat -> is_bottom lo l -> is_top hi l -> lo < hi ->
  bin_edges five_digits (NInt n) (map Fin l) = Ok b ->
  forall rlo rhi, five_digits (Fin lo) = Fin rlo -> five_digits (Fin hi) = Fin rhi ->
  ((exists i, cut b (Fin x) = Some i) <-> rlo < x <= rhi).
Proof.
  intros l lo hi n b x P B T L E rlo rhi Elo Ehi. unfold five_digits in *. rewrite (auto_edges l lo hi n 100000 P B T L) in E.
  match type of E with Ok ?u = Ok ?v => assert (Eb : u = v) by (clear - E; congruence) end. clear E. subst b.
  pose proof (round_edges_ordered lo hi n 100000 eq_refl (Rlt_le _ _ L) P) as O.
  set (f := fun r => IZR (ZnearestE (r * IZR 100000)) / IZR 100000) in *.
  assert (LE : List.length (even_edges lo hi n) = S n) by (unfold even_edges; rewrite map_length, seq_length; reflexivity).
  assert (R : range (map f (even_edges lo hi n)) (Fin x) = Rltb rlo x && Rleb x rhi).
  { unfold range, inb, nbin. rewrite map_length, LE. rewrite !(nth_indep (map f _) 0 (f 0)) by (rewrite map_length; lia). rewrite !(map_nth f).
    replace (S n - 1)%nat with n by lia. rewrite even_first, even_last by exact P. injection Elo as <-. injection Ehi as <-. reflexivity. }
  split.
  - intros [i C]. assert (RT : range (map f (even_edges lo hi n)) (Fin x) = true).
    { destruct (range (map f (even_edges lo hi n)) (Fin x)) eqn:Z; [reflexivity|]. apply cut_none in Z; [congruence|exact O]. }
    rewrite R in RT. apply andb_prop in RT. rewrite Rltb_true, Rleb_true in RT. exact RT.
  - intro H. destruct (cut (map Fin (map f (even_edges lo hi n))) (Fin x)) as [i|] eqn:C; [eauto|]. exfalso.
    apply cut_none in C; [|exact O]. rewrite R in C. rewrite (proj2 (Rltb_true _ _)), (proj2 (Rleb_true _ _)) in C by lra. discriminate.
Qed.
(** ... so the smallest value is lost whenever rounding does not lower it: integer data always lose their minimum. *)
Theorem C123_minimum_lost_refuted : forall (zs : list Z) lo hi n b, (0 < n)%nat -> In lo zs -> In hi zs -> (forall z, In z zs -> (lo <= z <= hi)%Z) -> (lo < hi)%Z ->
  bin_edges five_digits (NInt n) (map Fin (map IZR zs)) = Ok b -> cut b (Fin (IZR lo)) = None.
Proof.
  intros zs lo hi n b P Il Ih A L E. destruct (cut b (Fin (IZR lo))) as [i|] eqn:C; [|reflexivity]. exfalso.
  assert (X : IZR lo < IZR lo <= IZR hi); [|lra].
  apply (C123_automatic_bins_partial (map IZR zs) (IZR lo) (IZR hi) n b (IZR lo) P).
  - split; [apply in_map; exact Il|]. intros x I. apply in_map_iff in I. destruct I as [z [<- I]]. apply IZR_le. apply A. exact I.
  - split; [apply in_map; exact Ih|]. intros x I. apply in_map_iff in I. destruct I as [z [<- I]]. apply IZR_le. apply A. exact I.
  - apply IZR_lt. exact L.
  - exact E.
  - apply round_int. reflexivity.
  - apply round_int. reflexivity.
  - eauto.
Qed.

(* ------------------------------------------------------------------ borders *)
Lemma column_bins_in t ny i j : In j (column_bins t ny i) <-> (j < ny)%nat /\ agg2_value t i j <> NaN.
Proof. unfold column_bins. rewrite filter_In, in_seq, notnan_true. split; intros [A B]; (split; [lia|exact B]). Qed.
Lemma column_bins_sorted t ny i : StronglySorted lt (column_bins t ny i).
Proof.
  unfold column_bins. assert (G : forall n a, StronglySorted lt (filter (fun j => notnan (agg2_value t i j)) (seq a n))).
  { induction n as [|n IH]; intro a; [constructor|]. cbn [seq filter]. destruct (notnan (agg2_value t i a)); [|apply IH]. constructor; [apply IH|].
    apply Forall_forall. intros x I. apply filter_In in I. destruct I as [I _]. apply in_seq in I. lia. }
  apply G.
Qed.
Lemma sorted_head l (x : nat) r : l = x :: r -> StronglySorted lt l -> forall y, In y l -> (x <= y)%nat.
Proof. intros -> S0 y [<-|I]; [lia|]. inversion S0 as [|? ? _ F]; subst. rewrite Forall_forall in F. specialize (F y I). lia. Qed.
Lemma sorted_rev_head l (x : nat) r : rev l = x :: r -> StronglySorted lt l -> forall y, In y l -> (y <= x)%nat.
Proof.
  intros E S0 y I. assert (El : l = rev r ++ [x]) by (rewrite <- (rev_involutive l), E; reflexivity). subst l. clear E.
  apply in_app_or in I. destruct I as [I|[<-|[]]]; [|lia]. induction (rev r) as [|a u IH]; [destruct I|]. cbn [app] in S0. inversion S0 as [|? ? S1 F]; subst.
  destruct I as [<-|I]; [|apply IH; assumption]. rewrite Forall_forall in F. assert (a < x)%nat by (apply F, in_or_app; right; left; reflexivity). lia.
Qed.
(** C125: the top border holds, for each column that shows anything, its last shown bin with its value (the bottom border the first). *)
Theorem C125_top_border : forall t nx ny i j v,
  In ((i, j), v) (border_top t nx ny) <->
  (i < nx)%nat /\ (j < ny)%nat /\ v = agg2_value t i j /\ v <> NaN /\ (forall j', (j < j' < ny)%nat -> agg2_value t i j' = NaN).
Proof.
  intros t nx ny i j v. unfold border_top. rewrite in_flat_map. split.
  - intros [a [I J]]. apply in_seq in I. pose proof (column_bins_sorted t ny a) as S0.
    destruct (rev (column_bins t ny a)) as [|b r] eqn:E; [destruct J|]. destruct J as [J|[]]. injection J as <- <- <-.
    assert (Ib : In b (column_bins t ny a)) by (apply in_rev; rewrite E; left; reflexivity). pose proof (proj1 (column_bins_in t ny a b) Ib) as [L N].
    split; [lia|]. split; [exact L|]. split; [reflexivity|]. split; [exact N|]. intros j' Lj.
    destruct (notnan (agg2_value t a j')) eqn:Q; [|destruct (agg2_value t a j'); try discriminate; reflexivity].
    apply notnan_true in Q. assert (Ij : In j' (column_bins t ny a)) by (apply column_bins_in; split; [lia|exact Q]).
    pose proof (sorted_rev_head _ _ _ E S0 j' Ij). lia.
  - intros [Li [Lj [-> [N A]]]]. exists i. split; [apply in_seq; lia|]. assert (Ij : In j (column_bins t ny i)) by (apply column_bins_in; auto).
    destruct (rev (column_bins t ny i)) as [|b r] eqn:E; [apply in_rev in Ij; rewrite E in Ij; destruct Ij|].
    pose proof (sorted_rev_head _ _ _ E (column_bins_sorted t ny i) j Ij) as Lb.
    assert (Ib : In b (column_bins t ny i)) by (apply in_rev; rewrite E; left; reflexivity). apply column_bins_in in Ib. destruct Ib as [Lb2 Nb].
    destruct (Nat.eq_dec j b) as [<-|D]; [left; reflexivity|]. exfalso. apply Nb. apply A. lia.
Qed.
Theorem C125_bottom_border : forall t nx ny i j v,
  In ((i, j), v) (border_bottom t nx ny) <->
  (i < nx)%nat /\ (j < ny)%nat /\ v = agg2_value t i j /\ v <> NaN /\ (forall j', (j' < j)%nat -> agg2_value t i j' = NaN).
Proof.
  intros t nx ny i j v. unfold border_bottom. rewrite in_flat_map. split.
  - intros [a [I J]]. apply in_seq in I. pose proof (column_bins_sorted t ny a) as S0.
    destruct (column_bins t ny a) as [|b r] eqn:E; [destruct J|]. destruct J as [J|[]]. injection J as <- <- <-.
    assert (Ib : In b (column_bins t ny a)) by (rewrite E; left; reflexivity). pose proof (proj1 (column_bins_in t ny a b) Ib) as [L N].
    split; [lia|]. split; [exact L|]. split; [reflexivity|]. split; [exact N|]. intros j' Lj.
    destruct (notnan (agg2_value t a j')) eqn:Q; [|destruct (agg2_value t a j'); try discriminate; reflexivity].
    apply notnan_true in Q. assert (Ij : In j' (column_bins t ny a)) by (apply column_bins_in; split; [lia|exact Q]). rewrite E in Ij.
    pose proof (sorted_head _ _ _ eq_refl S0 j' Ij). lia.
  - intros [Li [Lj [-> [N A]]]]. exists i. split; [apply in_seq; lia|]. assert (Ij : In j (column_bins t ny i)) by (apply column_bins_in; auto).
    pose proof (column_bins_sorted t ny i) as S0. assert (M : forall k, In k (column_bins t ny i) -> agg2_value t i k <> NaN) by (intros k K; apply column_bins_in in K; apply K).
    destruct (column_bins t ny i) as [|b r]; [destruct Ij|].
    pose proof (sorted_head _ _ _ eq_refl S0 j Ij) as Lb.
    destruct (Nat.eq_dec j b) as [<-|D]; [left; reflexivity|]. exfalso. apply (M b); [left; reflexivity|]. apply A. lia.
Qed.
(** at most one entry per column, columns in order *)
Theorem C125_one_entry_per_column : forall t nx ny, StronglySorted lt (map (fun kv => fst (fst kv)) (border_top t nx ny)) /\ StronglySorted lt (map (fun kv => fst (fst kv)) (border_bottom t nx ny)).
Proof.
  intros t nx ny.
  assert (G : forall (f : nat -> list (k2 * XR)), (forall i, f i = [] \/ exists j v, f i = [((i, j), v)]) -> forall n a, StronglySorted lt (map (fun kv => fst (fst kv)) (flat_map f (seq a n))) /\ Forall (fun i => (a <= i)%nat) (map (fun kv => fst (fst kv)) (flat_map f (seq a n)))).
  { intros f F. induction n as [|n IH]; intro a; [split; constructor|]. cbn [seq flat_map]. rewrite map_app. destruct (IH (S a)) as [I1 I2].
    destruct (F a) as [->|[j [v ->]]]; cbn [map app fst].
    - split; [exact I1|]. eapply Forall_impl; [|exact I2]. intros; cbn in *; lia.
    - split; [constructor; [exact I1|]; eapply Forall_impl; [|exact I2]; intros; cbn in *; lia|]. constructor; [lia|]. eapply Forall_impl; [|exact I2]. intros; cbn in *; lia. }
  split; apply G; intro i.
  - destruct (rev (column_bins t ny i)) as [|j r]; [left; reflexivity|right; eauto].
  - destruct (column_bins t ny i) as [|j r]; [left; reflexivity|right; eauto].
Qed.
Theorem C125_witness : exists t, border_top t 1 2 = [((0%nat, 1%nat), Fin 3)] /\ border_bottom t 1 2 = [((0%nat, 0%nat), Fin 5)].
Proof. exists [((0%nat, 0%nat), Fin 5); ((0%nat, 1%nat), Fin 3)]. split; reflexivity. Qed.

(* ------------------------------------------------------------------ selection by boxes *)
Definition holds (b : (XR * XR) * (XR * XR)) (p : XR * XR) : Prop :=
  altb (fst (fst b)) (fst p) = true /\ aleb (fst p) (snd (fst b)) = true /\ altb (fst (snd b)) (snd p) = true /\ aleb (snd p) (snd (snd b)) = true.
Lemma in_box_holds b x y : in_box b x y = true <-> holds b (x, y).
Proof. unfold in_box, in_bin, holds. cbn [fst snd]. rewrite !andb_true_iff. tauto. Qed.
(** C124: the labels returned are, in increasing order, exactly those of the data in some box. *)
Theorem C124_labels_in_boxes : forall boxes (data : list (Z * (XR * XR))) out, take_boxes boxes data = Ok out ->
  StronglySorted Z.le out /\ (forall z, In z out <-> exists p b, In (z, p) data /\ In b boxes /\ holds b p).
Proof.
  intros boxes data out E. unfold take_boxes in E. destruct (existsb _ boxes); [discriminate|].
  assert (E2 : out = sort_by Z.leb (flat_map (fun bx => map fst (filter (fun r : Z * (XR * XR) => in_box bx (fst (snd r)) (snd (snd r))) data)) boxes)) by (destruct boxes; [discriminate|injection E as <-; reflexivity]).
  subst out. split.
  - assert (S0 := sort_by_sorted Z.leb (fun a b => ltac:(rewrite !Z.leb_le; lia)) (fun a b c => ltac:(rewrite !Z.leb_le; lia)) (flat_map (fun bx => map fst (filter (fun r : Z * (XR * XR) => in_box bx (fst (snd r)) (snd (snd r))) data)) boxes)).
    clear E. induction S0 as [|a l S0 IH F]; [constructor|]. constructor; [exact IH|]. eapply Forall_impl; [|exact F]. intros b Hb. apply Z.leb_le. exact Hb.
  - intro z. rewrite sort_by_In, in_flat_map. split.
    + intros [b [Ib I]]. apply in_map_iff in I. destruct I as [[z' [x y]] [<- I]]. apply filter_In in I. destruct I as [I B]. cbn [fst snd] in *.
      exists (x, y), b. split; [exact I|]. split; [exact Ib|]. apply in_box_holds. exact B.
    + intros [[x y] [b [I [Ib B]]]]. exists b. split; [exact Ib|]. apply in_map_iff. exists (z, (x, y)). split; [reflexivity|]. apply filter_In. split; [exact I|].
      apply in_box_holds. exact B.
Qed.
(** each datum once, if the boxes do not overlap *)
Theorem C124_no_repeats : forall boxes (data : list (Z * (XR * XR))) out, take_boxes boxes data = Ok out -> NoDup (map fst data) ->
  ForallOrdPairs (fun a b => forall p, holds a p -> holds b p -> False) boxes -> NoDup out.
Proof.
  intros boxes data out E ND D. unfold take_boxes in E. destruct (existsb _ boxes); [discriminate|].
  assert (E2 : out = sort_by Z.leb (flat_map (fun bx => map fst (filter (fun r : Z * (XR * XR) => in_box bx (fst (snd r)) (snd (snd r))) data)) boxes)) by (destruct boxes; [discriminate|injection E as <-; reflexivity]).
  subst out. clear E. apply sort_by_NoDup.
  assert (G : forall (u v : list Z), NoDup u -> NoDup v -> (forall x, In x u -> ~ In x v) -> NoDup (u ++ v)).
  { induction u as [|x u IHu]; intros v Nu Nv Dj; [exact Nv|]. apply NoDup_cons_iff in Nu. destruct Nu as [Nx Nu]. cbn [app]. constructor.
    - intro I. apply in_app_or in I. destruct I as [I|I]; [contradiction|]. apply (Dj x); [left; reflexivity|exact I].
    - apply IHu; [assumption|assumption|]. intros y I. apply Dj. right. exact I. }
  assert (ND1 : forall q, NoDup (map fst (filter q data))).
  { intro q. clear - ND. induction data as [|[z p] data IH]; [constructor|]. cbn [map fst] in ND. apply NoDup_cons_iff in ND. destruct ND as [N ND]. cbn [filter].
    destruct (q (z, p)); [|apply IH; exact ND]. cbn [map fst]. constructor; [|apply IH; exact ND]. intro I. apply N. apply in_map_iff in I. destruct I as [r [<- I]]. apply filter_In in I. apply in_map. apply I. }
  induction D as [|b boxes Fb D IH]; [constructor|]. cbn [flat_map]. apply G; [apply ND1|exact IH|].
  intros z I J. apply in_map_iff in I. destruct I as [[z1 [x1 y1]] [Ez I]]. cbn [fst] in Ez. subst z1. apply filter_In in I. destruct I as [I B]. cbn [fst snd] in B.
  apply in_flat_map in J. destruct J as [b' [Ib' J]]. apply in_map_iff in J. destruct J as [[z2 [x2 y2]] [Ez J]]. cbn [fst] in Ez. subst z2. apply filter_In in J. destruct J as [J B']. cbn [fst snd] in B'.
  assert (X : (x1, y1) = (x2, y2)).
  { clear - ND I J. induction data as [|[q r] data IH]; [destruct I|]. cbn [map fst] in ND. apply NoDup_cons_iff in ND. destruct ND as [N ND].
    destruct I as [I|I]; destruct J as [J|J].
    - congruence.
    - injection I as -> ->. exfalso. apply N. apply in_map_iff. exists (z, (x2, y2)). auto.
    - injection J as -> ->. exfalso. apply N. apply in_map_iff. exists (z, (x1, y1)). auto.
    - apply IH; assumption. }
  injection X as <- <-. rewrite Forall_forall in Fb. apply (Fb b' Ib' (x1, y1)); apply in_box_holds; assumption.
Qed.
Theorem C124_witness : take_boxes [((Fin 0, Fin 1), (Fin 0, Fin 2)); ((Fin 1, Fin 2), (Fin 0, Fin 1))]
    [(7%Z, (Fin 2, Fin 1)); (3%Z, (Fin 1, Fin 2)); (5%Z, (Fin 2, Fin 2))] = Ok [3%Z; 7%Z].
Proof.
  unfold take_boxes. cbn [existsb flat_map filter map fst snd app]. unfold in_box, in_bin. cbn [fst snd].
  rewrite !fin_ltb, !fin_leb. decb. reflexivity.
Qed.

(* ------------------------------------------------------------------ projection of a 2D histogram *)
Lemma bin_roundtrip lg e i x : bin e i (coord lg (if lg then exp10 x else x)) = bin e i x.
Proof.
  destruct lg; [|reflexivity]. destruct x as [x| | |]; try reflexivity.
  rewrite exp10_fin. cbn [coord]. unfold log10. rewrite fin_abs, fin_ofZ.
  assert (P : 0 < Rpower 10 x) by apply exp_pos. rewrite Rabs_right by lra. rewrite !fin_ln by lra.
  assert (L10 : ln 10 <> 0) by (assert (ln 1 < ln 10) by (apply ln_increasing; lra); rewrite ln_1 in *; lra).
  rewrite fin_div by exact L10. do 2 f_equal. unfold Rpower. rewrite ln_exp. field. exact L10.
Qed.
Lemma tally_filter {X} (p q : X -> bool) l : tally p (filter q l) = tally (fun x => q x && p x) l.
Proof. induction l as [|x l IH]; [reflexivity|]. cbn [filter]. destruct (q x) eqn:Q; rewrite ?tally_cons, ?Q, IH; reflexivity. Qed.
Lemma tally_map {X Y} (f : X -> Y) p l : tally p (map f l) = tally (fun x => p (f x)) l.
Proof. induction l as [|x l IH]; [reflexivity|]. cbn [map]. rewrite !tally_cons, IH. reflexivity. Qed.
Lemma column_total ex ey data i : ordered ey -> list_sum (map (fun j => tally (cell2 ex ey i j) data) (seq 0 (nbin ey))) = tally (fun r => bin ex i (fst (fst r)) && range ey (snd (fst r))) data.
Proof.
  intro Oy. rewrite <- (tally_ext (fun r => match (if bin ex i (fst (fst r)) then cut (map Fin ey) (snd (fst r)) else None) with Some _ => true | None => false end)).
  - rewrite <- (sum_tally (fun r => if bin ex i (fst (fst r)) then cut (map Fin ey) (snd (fst r)) else None) Nat.eqb (seq 0 (nbin ey)) data nat_eqb_spec (seq_NoDup _ _)).
    + f_equal. apply map_ext_in. intros j J. apply in_seq in J. apply tally_ext. intros r _. unfold cell2. destruct (bin ex i (fst (fst r))); [|reflexivity]. cbn [andb]. symmetry. apply cut_match; [exact Oy|lia].
    + intros r k C. destruct (bin ex i (fst (fst r))); [|discriminate]. apply cut_some in C; [|exact Oy]. apply in_seq. lia.
  - intros r _. destruct (bin ex i (fst (fst r))); [|reflexivity]. cbn [andb]. pose proof (cut_none ey (snd (fst r)) Oy) as Y.
    destruct (cut (map Fin ey) (snd (fst r))); destruct (range ey (snd (fst r))); try reflexivity; [specialize (proj2 Y eq_refl)|specialize (proj1 Y eq_refl)]; discriminate.
Qed.
(** C126: without limits, projecting the counts of a 2D histogram on x gives the column sums of its counts. *)
Theorem C126_projection_is_column_sum : forall (lx ly : bool) (ex ey : list R) xs ys data pr, ordered ex -> ordered ey ->
  set_data2 lx ly xs ys None = Ok data ->
  project_counts_x lx ly N2None nolim nolim (map Fin ex) (map Fin ey) true data = Ok pr ->
  let t := agg2 lx ly N2None nolim nolim (map Fin ex) (map Fin ey) FDefault data in
  forall i, (i < nbin ex)%nat ->
  exists s, sum_skip (map (agg2_value t i) (seq 0 (nbin ey))) = Fin s /\ agg1_value pr i = if Reqb s 0 then NaN else Fin s.
Proof.
  intros lx ly ex ey xs ys data pr Ox Oy SD E t i Li. pose proof (set_data2_unweighted _ _ _ _ _ SD) as U.
  set (n := tally (fun r => bin ex i (fst (fst r)) && range ey (snd (fst r))) data). exists (INR n). split.
  - rewrite (map_ext_in _ (fun j => cell (limited nolim (tally (cell2 ex ey i j) data)))).
    2:{ intros j J. apply in_seq in J. unfold t. apply counts2_value; auto. lia. }
    rewrite <- (map_map (fun j => limited nolim (tally (cell2 ex ey i j) data)) cell), sum_skip_cells. f_equal. unfold n. rewrite <- (column_total ex ey data i Oy).
    induction (seq 0 (nbin ey)) as [|j l IH]; [reflexivity|]. cbn [map list_sum fold_right]. rewrite plus_INR, present_cons, Rsum_app. unfold list_sum in IH. rewrite <- IH. f_equal.
    unfold limited. destruct (Nat.eqb (tally (cell2 ex ey i j) data) 0) eqn:Z; [apply Nat.eqb_eq in Z; rewrite Z; reflexivity|]. cbn. lra.
  - unfold project_counts_x in E. cbv zeta iota in E. rewrite (counts1_value lx ex _ nolim FDefault pr i Ox (or_introl eq_refl) Li E).
    assert (F : filled lx ex (map (fun p => if lx then exp10 (fst (fst (fst p))) else fst (fst (fst p))) (filter snd (combine data (plotted_series2 lx ly N2None nolim nolim (map Fin ex) (map Fin ey) data)))) i = n).
    { unfold filled, n. rewrite tally_map, tally_filter.
      rewrite (tally_ext _ (fun p : (XR * XR * XR) * bool => snd p && bin ex i (fst (fst (fst p))))) by (intros p _; cbv zeta; rewrite bin_roundtrip; reflexivity).
      pose proof (C75_plotted_counts_2d lx ly ex ey xs ys data Ox Oy SD) as P. cbv zeta in P. fold t in P.
      assert (V : forall r a b, In r data -> (a < nbin ex)%nat -> (b < nbin ey)%nat -> cell2 ex ey a b r = true -> agg2_value t a b <> NaN).
      { intros r a b I La Lb B. unfold t. rewrite counts2_value by auto.
        assert (N : tally (cell2 ex ey a b) data <> 0%nat).
        { unfold tally. intro Z. apply length_zero_iff_nil in Z. assert (J : In r (filter (cell2 ex ey a b) data)) by (apply filter_In; auto). rewrite Z in J. destruct J. }
        unfold limited. apply Nat.eqb_neq in N. rewrite N. discriminate. }
      clearbody t. revert P V. generalize (plotted_series2 lx ly N2None nolim nolim (map Fin ex) (map Fin ey) data). clear - Ox Oy Li.
      induction data as [|r data IH]; intros l P V; inversion P as [|? b ? l' Q P']; subst; [reflexivity|]. cbn [combine]. rewrite !tally_cons. rewrite IH; [|exact P'|intros; eapply V; eauto; right; assumption].
      f_equal. cbn [fst snd]. destruct (bin ex i (fst (fst r))) eqn:B; [|rewrite andb_false_r; reflexivity]. rewrite andb_true_r. cbn [andb].
      replace b with (range ey (snd (fst r))); [reflexivity|].
      destruct (range ey (snd (fst r))) eqn:RG.
      - symmetry. apply Q. unfold range in RG. rewrite inb_true in RG. destruct RG as [y [Ey Hy]].
        destruct (in_some_bin ey y (nbin ey)) as [j [Lj Bj]]; [lia|exact Hy|]. exists i, j.
        assert (C : cell2 ex ey i j r = true) by (unfold cell2; rewrite B; cbn [andb]; unfold bin; rewrite inb_true; eauto).
        split; [exact Li|]. split; [exact Lj|]. split; [exact C|]. apply (V r); auto. left. reflexivity.
      - destruct b; [|reflexivity]. exfalso. destruct (proj1 Q eq_refl) as [a [c [La [Lc [C _]]]]]. unfold cell2 in C. apply andb_prop in C. destruct C as [_ C].
        assert (X : cut (map Fin ey) (snd (fst r)) = Some c) by (apply cut_some; auto). apply cut_none in RG; [|exact Oy]. congruence. }
    rewrite F. unfold limited. destruct (Nat.eqb n 0) eqn:Z.
    + apply Nat.eqb_eq in Z. rewrite Z. cbn [INR cell]. replace (Reqb 0 0) with true by (symmetry; apply Reqb_true; reflexivity). reflexivity.
    + apply Nat.eqb_neq in Z. replace (Reqb (INR n) 0) with false by (symmetry; apply Reqb_false; apply not_0_INR; exact Z). reflexivity.
Qed.
(** With limits it need not: two masked points... the five points above, limited to bins with two: column 0 shows 2, its projection 3. *)
Theorem C126_with_limits_refuted : exists pr,
  project_counts_x false false N2None at_least_two nolim (map Fin [0;1;2]) (map Fin [0;1;2]) true five = Ok pr
  /\ agg2_value (agg2 false false N2None at_least_two nolim (map Fin [0;1;2]) (map Fin [0;1;2]) FDefault five) 0 0 = Fin 2
  /\ agg2_value (agg2 false false N2None at_least_two nolim (map Fin [0;1;2]) (map Fin [0;1;2]) FDefault five) 0 1 = NaN
  /\ agg1_value pr 0 = Fin 3.
Proof.
  destruct five_cells as [F0 [F1 F2]].
  assert (U : unweighted five) by (intros r I; repeat (destruct I as [<-|I]; [reflexivity|]); destruct I).
  assert (O : ordered [0; 1; 2]) by (apply strictly_ordered, strictly_012).
  set (t := agg2 false false N2None at_least_two nolim (map Fin [0;1;2]) (map Fin [0;1;2]) FDefault five).
  assert (V00 : agg2_value t 0 0 = Fin 2) by (unfold t; rewrite counts2_value by (auto; cbn; lia); rewrite F0, limited_two; reflexivity).
  assert (V01 : agg2_value t 0 1 = NaN) by (unfold t; rewrite counts2_value by (auto; cbn; lia); rewrite F1, limited_two; reflexivity).
  assert (V11 : agg2_value t 1 1 = Fin 2) by (unfold t; rewrite counts2_value by (auto; cbn; lia); rewrite F2, limited_two; reflexivity).
  assert (PS : plotted_series2 false false N2None at_least_two nolim (map Fin [0;1;2]) (map Fin [0;1;2]) five = [true; true; true; true; true]).
  { pose proof (C75_plotted_data_2d_partial false false N2None at_least_two nolim [0;1;2] [0;1;2] five O O) as P. cbv zeta in P. fold t in P.
    revert P. generalize (plotted_series2 false false N2None at_least_two nolim (map Fin [0;1;2]) (map Fin [0;1;2]) five). unfold five. intros l P.
    repeat match goal with P : Forall2 _ (_ :: _) _ |- _ => inversion P as [|? ? ? ? [? _] ?]; subst; clear P | P : Forall2 _ [] _ |- _ => inversion P; subst; clear P end.
    assert (X : forall i j (r : XR * XR * XR), (i < 2)%nat -> (j < 2)%nat -> cell2 [0;1;2] [0;1;2] i j r = true -> exists i0 j0, (i0 < nbin [0%R;1%R;2%R])%nat /\ (j0 < nbin [0%R;1%R;2%R])%nat /\ cell2 [0;1;2] [0;1;2] i0 j0 r = true /\ (exists j', agg2_value t i0 j' <> NaN) /\ (exists i', agg2_value t i' j0 <> NaN)).
    { intros i j r Li Lj B. exists i, j. split; [cbn; lia|]. split; [cbn; lia|]. split; [exact B|]. split.
      - destruct i as [|[|i]]; [exists 0%nat; rewrite V00; discriminate|exists 1%nat; rewrite V11; discriminate|lia].
      - destruct j as [|[|j]]; [exists 0%nat; rewrite V00; discriminate|exists 1%nat; rewrite V11; discriminate|lia]. }
    repeat f_equal; (match goal with H : ?b = true <-> _ |- ?b = true => apply H end);
    first [apply (X 0%nat 0%nat); [lia|lia|]; unfold cell2, bin, inb; cbn [nth fst snd]; decb; reflexivity
          |apply (X 1%nat 1%nat); [lia|lia|]; unfold cell2, bin, inb; cbn [nth fst snd]; decb; reflexivity
          |apply (X 0%nat 1%nat); [lia|lia|]; unfold cell2, bin, inb; cbn [nth fst snd]; decb; reflexivity]. }
  eexists. split; [reflexivity|]. split; [exact V00|]. split; [exact V01|].
  erewrite (counts1_value false [0;1;2] _ nolim FDefault _ 0 O (or_introl eq_refl)); [|cbn; lia|unfold project_counts_x; reflexivity].
  rewrite PS. unfold filled, five, tally, bin, coord, inb. cbn [combine filter snd map fst nth]. decb. cbn. f_equal. lra.
Qed.
