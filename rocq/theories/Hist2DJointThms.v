(** C196 (joint plots), C197 (beta-anisotropy plots). *)
From Coq Require Import Reals List String Ascii Bool Arith ZArith Lra Lia Permutation Sorted.
From Verif Require Import Py PyStr Num Sort Activity ActivityThms FitFuncsThms Hist HistThms HistMoreThms HistPlot HistPlotThms PlotTools PlotToolsThms LabelTables Labels LabelsThms Spacecraft Icme Hist2DPlot Hist2DPlotThms.
Import ListNotations.
Open Scope list_scope.
Open Scope R_scope.

(* ------------------------------------------------------------------ C196: the joint plot *)
Lemma row_total ex ey data j : ordered ex -> list_sum (map (fun i => tally (cell2 ex ey i j) data) (seq 0 (nbin ex))) = tally (fun r => bin ey j (snd (fst r)) && range ex (fst (fst r))) data.
Proof.
  intro Ox. rewrite <- (tally_ext (fun r => match (if bin ey j (snd (fst r)) then cut (map Fin ex) (fst (fst r)) else None) with Some _ => true | None => false end)).
  - rewrite <- (sum_tally (fun r => if bin ey j (snd (fst r)) then cut (map Fin ex) (fst (fst r)) else None) Nat.eqb (seq 0 (nbin ex)) data nat_eqb_spec (seq_NoDup _ _)).
    + f_equal. apply map_ext_in. intros i J. apply in_seq in J. apply tally_ext. intros r _. unfold cell2. destruct (bin ey j (snd (fst r))); [|rewrite andb_false_r; reflexivity]. rewrite andb_true_r. symmetry. apply cut_match; [exact Ox|lia].
    + intros r k C. destruct (bin ey j (snd (fst r))); [|discriminate]. apply cut_some in C; [|exact Ox]. apply in_seq. lia.
  - intros r _. destruct (bin ey j (snd (fst r))); [|reflexivity]. cbn [andb]. pose proof (cut_none ex (fst (fst r)) Ox) as Y.
    destruct (cut (map Fin ex) (fst (fst r))); destruct (range ex (fst (fst r))); try reflexivity; [specialize (proj2 Y eq_refl)|specialize (proj1 Y eq_refl)]; discriminate.
Qed.
Lemma range_bin e v : ordered e -> range e v = true <-> exists i, (i < nbin e)%nat /\ bin e i v = true.
Proof.
  intro O. split.
  - intro RG. unfold range in RG. rewrite inb_true in RG. destruct RG as [y [Ey Hy]]. destruct (in_some_bin e y (nbin e)) as [j [Lj Bj]]; [lia|exact Hy|]. exists j. split; [exact Lj|]. unfold bin. rewrite inb_true. eauto.
  - intros (i & L & B). destruct (range e v) eqn:RG; [reflexivity|]. apply cut_none in RG; [|exact O]. assert (X : cut (map Fin e) v = Some i) by (apply cut_some; auto). congruence.
Qed.
Lemma plotted_flags lx ly ex ey xs ys data : ordered ex -> ordered ey -> set_data2 lx ly xs ys None = Ok data ->
  plotted_series2 lx ly N2None nolim nolim (map Fin ex) (map Fin ey) data = map (fun r => range ex (fst (fst r)) && range ey (snd (fst r))) data.
Proof.
  intros Ox Oy SD. pose proof (set_data2_unweighted _ _ _ _ _ SD) as U. pose proof (C75_plotted_counts_2d lx ly ex ey xs ys data Ox Oy SD) as P. cbv zeta in P.
  set (t := agg2 lx ly N2None nolim nolim (map Fin ex) (map Fin ey) FDefault data) in P.
  assert (V : forall r a b, In r data -> (a < nbin ex)%nat -> (b < nbin ey)%nat -> cell2 ex ey a b r = true -> agg2_value t a b <> NaN).
  { intros r a b I La Lb B. unfold t. rewrite counts2_value by auto.
    assert (N : tally (cell2 ex ey a b) data <> 0%nat).
    { unfold tally. intro Z. apply length_zero_iff_nil in Z. assert (J : In r (filter (cell2 ex ey a b) data)) by (apply filter_In; auto). rewrite Z in J. destruct J. }
    unfold limited. apply Nat.eqb_neq in N. rewrite N. discriminate. }
  clearbody t. revert P V. generalize (plotted_series2 lx ly N2None nolim nolim (map Fin ex) (map Fin ey) data). clear - Ox Oy.
  induction data as [|r data IH]; intros l P V; inversion P as [|? b ? l' Q P']; subst; [reflexivity|]. cbn [map]. f_equal; [|apply IH; [exact P'|intros; eapply V; eauto; right; assumption]].
  apply eq_true_iff_eq. rewrite Q, andb_true_iff, !range_bin by assumption. split.
  - intros (i & j & Li & Lj & C & _). unfold cell2 in C. apply andb_prop in C as [C1 C2]. split; [exists i|exists j]; auto.
  - intros [(i & Li & Bi) (j & Lj & Bj)]. assert (C : cell2 ex ey i j r = true) by (unfold cell2; rewrite Bi, Bj; reflexivity). exists i, j. split; [exact Li|]. split; [exact Lj|]. split; [exact C|]. apply (V r); auto. left. reflexivity.
Qed.
Lemma kept_tally {X} (p q : X -> bool) l : tally p (map fst (filter snd (combine l (map q l)))) = tally (fun x => q x && p x) l.
Proof. induction l as [|x l IH]; [reflexivity|]. cbn [map combine filter snd]. unfold tally in *. destruct (q x) eqn:Q; cbn [map filter fst]; rewrite Q; cbn [andb]; [destruct (p x); cbn [List.length]; rewrite IH; reflexivity|exact IH]. Qed.
(** the number painted in a cell (none: 0), and the bar a histogram draws for a total *)
Definition ink (o : option (option XR)) : R := match o with Some (Some (Fin v)) => v | _ => 0 end.
Definition bar (s : R) : XR := if Reqb s 0 then NaN else Fin s.
Definition total (l : list R) : R := fold_right Rplus 0 l.
Lemma bar_count n : (if Nat.eqb n 0 then NaN else Fin (INR n)) = bar (INR n).
Proof.
  unfold bar. destruct (Nat.eqb n 0) eqn:Z; [apply Nat.eqb_eq in Z; subst n; rewrite (proj2 (Reqb_true (INR 0) 0)) by reflexivity; reflexivity|].
  apply Nat.eqb_neq in Z. rewrite (proj2 (Reqb_false (INR n) 0)) by (apply not_0_INR; exact Z). reflexivity.
Qed.
Lemma total_counts (f : nat -> nat) l : INR (list_sum (map f l)) = total (map (fun k => INR (f k)) l).
Proof. induction l as [|k l IH]; [reflexivity|]. cbn [map list_sum fold_right total]. rewrite plus_INR. unfold list_sum, total in IH. rewrite IH. reflexivity. Qed.
Lemma limited_nolim n : cell (limited nolim n) = if Nat.eqb n 0 then NaN else Fin (INR n).
Proof. unfold limited. destruct (Nat.eqb n 0); reflexivity. Qed.
(** Without limits or normalisation: each bar above the picture is the total painted below it, each bar beside the picture the total painted in its row. *)
Theorem C196_bars_are_totals_partial : forall lx ly ex ey xs ys data, strictly ex -> strictly ey -> (2 <= List.length ex)%nat -> (2 <= List.length ey)%nat ->
  set_data2 lx ly xs ys None = Ok data ->
  exists pic top side, joint_plot lx ly N2None nolim nolim (map Fin ex) (map Fin ey) data = Ok (pic, top, side)
  /\ pic = make_plot lx ly N2None nolim nolim (map Fin ex) (map Fin ey) FDefault data
  /\ (forall i, (i < nbin ex)%nat -> agg1_value top i = bar (total (map (fun j => ink (entry (p_C pic) j i)) (seq 0 (nbin ey)))))
  /\ (forall j, (j < nbin ey)%nat -> agg1_value side j = bar (total (map (fun i => ink (entry (p_C pic) j i)) (seq 0 (nbin ex))))).
Proof.
  intros lx ly ex ey xs ys data Sx Sy Lx Ly SD. pose proof (strictly_ordered _ Sx) as Ox. pose proof (strictly_ordered _ Sy) as Oy. pose proof (set_data2_unweighted _ _ _ _ _ SD) as U.
  destruct (C192_every_cell_in_its_place lx ly N2None nolim nolim ex ey FDefault data Sx Sy Lx Ly) as (_ & _ & _ & _ & H).
  assert (IK : forall i j, (i < nbin ex)%nat -> (j < nbin ey)%nat -> ink (entry (p_C (make_plot lx ly N2None nolim nolim (map Fin ex) (map Fin ey) FDefault data)) j i) = INR (tally (cell2 ex ey i j) data)).
  { intros i j Li Lj. destruct (H i j Li Lj) as (o & E & Sh). rewrite E. rewrite counts2_value in Sh by auto. rewrite limited_nolim in Sh.
    destruct (Nat.eqb (tally (cell2 ex ey i j) data) 0) eqn:Z; cbn [shows] in Sh; subst o; [apply Nat.eqb_eq in Z; rewrite Z|]; reflexivity. }
  unfold joint_plot.
  destruct (projection true true true lx ly N2None nolim nolim (map Fin ex) (map Fin ey) data) as [top|e1] eqn:ET; [|unfold projection, project_1d, agg1, axis_normalizer1 in ET; cbv zeta iota in ET; discriminate].
  destruct (projection false true true lx ly N2None nolim nolim (map Fin ex) (map Fin ey) data) as [side|e1] eqn:ES; [|unfold projection, project_1d, agg1, axis_normalizer1 in ES; cbv zeta iota in ES; discriminate].
  cbn [bind]. do 3 eexists. split; [reflexivity|]. split; [reflexivity|].
  unfold projection, project_1d in ET, ES. cbv zeta iota in ET, ES. rewrite (plotted_flags lx ly ex ey xs ys data Ox Oy SD) in ET, ES. split.
  - intros i Li. rewrite (counts1_value lx ex _ nolim FDefault top i Ox (or_introl eq_refl) Li ET). rewrite limited_nolim, bar_count. f_equal. unfold filled. rewrite tally_map.
    rewrite (tally_ext _ (fun r : XR * XR * XR => bin ex i (fst (fst r)))) by (intros p _; apply bin_roundtrip). rewrite kept_tally.
    transitivity (INR (list_sum (map (fun j => tally (cell2 ex ey i j) data) (seq 0 (nbin ey))))).
    + rewrite column_total by exact Oy. f_equal. apply tally_ext. intros r _. destruct (bin ex i (fst (fst r))) eqn:B; [|rewrite andb_false_r; reflexivity]. rewrite andb_true_r.
      replace (range ex (fst (fst r))) with true; [reflexivity|]. symmetry. apply range_bin; [exact Ox|]. eauto.
    + rewrite total_counts. f_equal. apply map_ext_in. intros j J. apply in_seq in J. symmetry. apply IK; lia.
  - intros j Lj. rewrite (counts1_value ly ey _ nolim FDefault side j Oy (or_introl eq_refl) Lj ES). rewrite limited_nolim, bar_count. f_equal. unfold filled. rewrite tally_map.
    rewrite (tally_ext _ (fun r : XR * XR * XR => bin ey j (snd (fst r)))) by (intros p _; apply bin_roundtrip). rewrite kept_tally.
    transitivity (INR (list_sum (map (fun i => tally (cell2 ex ey i j) data) (seq 0 (nbin ex))))).
    + rewrite row_total by exact Ox. f_equal. apply tally_ext. intros r _. destruct (bin ey j (snd (fst r))) eqn:B; [|rewrite andb_false_r; reflexivity]. rewrite andb_true_r. cbn [andb].
      replace (range ey (snd (fst r))) with true; [rewrite andb_true_r; reflexivity|]. symmetry. apply range_bin; [exact Oy|]. eauto.
    + rewrite total_counts. f_equal. apply map_ext_in. intros i J. apply in_seq in J. symmetry. apply IK; lia.
Qed.

(* ------------------------------------------------------------------ C197: the beta-anisotropy plot *)
(** A cell between edges x0, x1 and y0, y1 of the drawing shows the number of data in it if that is at least five, and nothing otherwise. Axes are logarithmic unless switched off. *)
Theorem C197_five_counts : forall logx logy ex ey xs ys, strictly ex -> strictly ey -> (2 <= List.length ex)%nat -> (2 <= List.length ey)%nat ->
  let lx := match logx with Some false => false | _ => true end in let ly := match logy with Some false => false | _ => true end in
  forall pic, beta_plot logx logy N2None (map Fin ex) (map Fin ey) xs ys = Ok pic ->
  p_x pic = map Fin (map (as_drawn lx) ex) /\ p_y pic = map Fin (map (as_drawn ly) ey)
  /\ forall i j x0 x1 y0 y1, nth_error (p_x pic) i = Some (Fin x0) -> nth_error (p_x pic) (S i) = Some (Fin x1) -> nth_error (p_y pic) j = Some (Fin y0) -> nth_error (p_y pic) (S j) = Some (Fin y1) ->
  let n := tally (fun p => inb x0 x1 (magnitude lx (fst p)) && inb y0 y1 (magnitude ly (snd p))) (combine xs ys) in
  entry (p_C pic) j i = Some (if Nat.ltb n 5 then None else Some (Fin (INR n))).
Proof.
  intros logx logy ex ey xs ys Sx Sy Lx Ly lx ly pic E. unfold beta_plot in E. cbv zeta in E.
  replace (match logx with Some b => b | None => true end) with lx in E by (destruct logx as [[|]|]; reflexivity). replace (match logy with Some b => b | None => true end) with ly in E by (destruct logy as [[|]|]; reflexivity).
  destruct (set_data2 lx ly xs ys None) as [data|] eqn:SD; [|discriminate]. cbn [bind] in E. apply ok_inj in E. subst pic.
  set (lim := (Some (aofZ 5), None) : option XR * option XR).
  change (match (None, None) : option XR * option XR with p => p end) with nolim.
  destruct (C192_every_cell_in_its_place lx ly N2None lim nolim ex ey FDefault data Sx Sy Lx Ly) as (PX & PY & _ & _ & H). fold nolim. unfold nolim in *. rewrite PX, PY. split; [reflexivity|]. split; [reflexivity|].
  intros i j x0 x1 y0 y1 Hx0 Hx1 Hy0 Hy1.
  assert (NX : forall lg (e : list R) k v, nth_error (map Fin (map (as_drawn lg) e)) k = Some (Fin v) -> (k < List.length e)%nat /\ v = as_drawn lg (nth k e 0)).
  { intros lg e k v E. rewrite map_map, nth_error_map in E. destruct (nth_error e k) as [u|] eqn:Eu; [|discriminate]. split; [apply nth_error_Some; congruence|]. apply (nth_error_nth _ _ 0) in Eu. rewrite Eu. cbn in E. congruence. }
  apply NX in Hx0 as [_ ->]. apply NX in Hx1 as [Li ->]. apply NX in Hy0 as [_ ->]. apply NX in Hy1 as [Lj ->].
  set (n := tally _ (combine xs ys)).
  destruct (H i j) as (o & E & Sh); [unfold nbin; lia|unfold nbin; lia|]. rewrite E. f_equal.
  pose proof (set_data2_unweighted _ _ _ _ _ SD) as U. pose proof (strictly_ordered _ Sx) as Ox. pose proof (strictly_ordered _ Sy) as Oy.
  assert (Li' : (i < nbin ex)%nat) by (unfold nbin; lia). assert (Lj' : (j < nbin ey)%nat) by (unfold nbin; lia).
  change ((None, None) : option XR * option XR) with nolim in Sh. rewrite (counts2_value lx ly ex ey data lim FDefault i j Ox Oy U (or_introl eq_refl) Li' Lj') in Sh.
  destruct (C71_counts_2d lx ly ex ey xs ys data Ox Oy SD) as [CN _]. specialize (CN i j Li Lj). cbv zeta in CN. rewrite (counts2_value lx ly ex ey data nolim FDefault i j Ox Oy U (or_introl eq_refl) Li' Lj') in CN.
  assert (EN : tally (fun p : XR * XR => inb (nth i ex 0) (nth (S i) ex 0) (coord lx (fst p)) && inb (nth j ey 0) (nth (S j) ey 0) (coord ly (snd p))) (combine xs ys) = n).
  { unfold n. apply tally_ext. intros p _. rewrite !drawn_bin. reflexivity. }
  rewrite EN in CN. set (m := tally (cell2 ex ey i j) data) in *. rewrite limited_nolim in CN.
  assert (NM : m = n).
  { destruct (Nat.eqb m 0) eqn:Zm; destruct (Nat.eqb n 0) eqn:Zn; try discriminate; [apply Nat.eqb_eq in Zm, Zn; congruence|]. apply INR_eq. congruence. }
  rewrite NM in Sh. clear CN EN NM m. unfold limited in Sh. destruct (Nat.eqb n 0) eqn:Z; [apply Nat.eqb_eq in Z; rewrite Z; exact Sh|].
  replace (within lim (Fin (INR n))) with (negb (Nat.ltb n 5)) in Sh.
  - destruct (Nat.ltb n 5); exact Sh.
  - unfold within, lim. cbn [fst snd]. rewrite andb_true_r, fin_ofZ, fin_leb. destruct (Nat.ltb n 5) eqn:L5; cbn [negb]; symmetry.
    + apply Rleb_false. apply Nat.ltb_lt in L5. apply lt_INR in L5. cbn in L5. lra.
    + apply Rleb_true. apply Nat.ltb_ge in L5. apply le_INR in L5. cbn in L5. lra.
Qed.
(** The labels: parallel beta of the species against its temperature anisotropy, or its pressure anisotropy for a sum of species; the "_bimax" of a fit is dropped. *)
Lemma has_char_app c a t : has_char c (a ++ t)%string = has_char c a || has_char c t.
Proof. induction a as [|d a IH]; [reflexivity|]. cbn [append has_char]. rewrite IH. apply orb_assoc. Qed.
Lemma contains_mid a b : Labels.contains "+" (a ++ "+" ++ b)%string = true.
Proof. induction a as [|c a IH]; [destruct b; reflexivity|]. cbn [append Labels.contains]. cbn [append] in IH. rewrite IH. apply orb_true_r. Qed.
Lemma drop_bimax a : has_char "_" a = false -> replace "_bimax" "" (a ++ "_bimax") = a.
Proof.
  unfold replace. induction a as [|c a IH]; [reflexivity|]. cbn [has_char]. intro H. apply orb_false_elim in H as [H1 H2]. cbn [append replace_go].
  replace (String.prefix "_bimax" (String c (a ++ "_bimax"))) with false; [rewrite IH by exact H2; reflexivity|].
  symmetry. cbn [String.prefix]. destruct (ascii_dec "_" c) as [E|E]; [|reflexivity]. subst c. discriminate H1.
Qed.
Theorem C197_labels : forall a b : string, has_char "_" a = false -> Labels.contains "+" a = false ->
  beta_labels a = (("beta", "par", a), ("R", "T", a))%string /\ beta_labels (a ++ "_bimax")%string = (("beta", "par", a), ("R", "T", a))%string
  /\ (has_char "_" b = false -> beta_labels (a ++ "+" ++ b)%string = (("beta", "par", a ++ "+" ++ b), ("R", "P", a ++ "+" ++ b))%string).
Proof.
  assert (NB : forall s, has_char "_" s = false -> replace "_bimax" "" s = s).
  { intros s H. apply replace_none. induction s as [|c s IH]; [reflexivity|]. cbn [has_char] in H. apply orb_false_elim in H as [H1 H2]. cbn [Labels.contains]. rewrite IH by exact H2. rewrite orb_false_r. cbn [String.prefix].
    destruct (ascii_dec "_" c) as [E|E]; [|reflexivity]. subst c. discriminate H1. }
  assert (NP : forall s, Labels.contains "+" s = false -> Labels.contains "+" (s ++ "_bimax") = false).
  { induction s as [|c s IH]; [reflexivity|]. cbn [append]. cbn [Labels.contains]. intro H. apply orb_false_elim in H as [H1 H2]. rewrite IH by exact H2. rewrite orb_false_r. cbn [String.prefix] in *. destruct (ascii_dec "+" c) as [E|E]; [|reflexivity]. destruct s; discriminate H1. }
  intros a b U P. unfold beta_labels. cbv zeta. split; [|split].
  - rewrite P, NB by exact U. reflexivity.
  - rewrite NP by exact P. rewrite drop_bimax by exact U. reflexivity.
  - intro Ub. rewrite contains_mid, NB; [reflexivity|]. rewrite !has_char_app, U, Ub. reflexivity.
Qed.
Example C197_ex : strictly [0; 1; 2] /\ has_char "_" "p1" = false /\ Labels.contains "+" "p1" = false
  /\ exists pic, beta_plot (Some false) (Some false) N2None (map Fin [0; 1; 2]) (map Fin [0; 1; 2]) (repeat (Fin 1) 5) (repeat (Fin 1) 5) = Ok pic
     /\ entry (p_C pic) 0 0 = Some (Some (Fin (INR 5))).
Proof.
  split; [apply strictly_012|]. split; [reflexivity|]. split; [reflexivity|]. destruct (beta_plot (Some false) (Some false) N2None (map Fin [0; 1; 2]) (map Fin [0; 1; 2]) (repeat (Fin 1) 5) (repeat (Fin 1) 5)) as [pic|] eqn:E.
  - exists pic. split; [reflexivity|]. destruct (C197_five_counts _ _ _ _ _ _ strictly_012 strictly_012 ltac:(cbn; lia) ltac:(cbn; lia) pic E) as (PX & PY & H).
    rewrite (H 0%nat 0%nat 0 1 0 1) by (rewrite ?PX, ?PY; reflexivity).
    assert (T : tally (fun p : XR * XR => inb 0 1 (magnitude false (fst p)) && inb 0 1 (magnitude false (snd p))) (combine (repeat (Fin 1) 5) (repeat (Fin 1) 5)) = 5%nat).
    { assert (I1 : inb 0 1 (Fin 1) = true) by (unfold inb; rewrite (proj2 (Rltb_true 0 1)) by lra; apply Rleb_true; lra). cbn [repeat combine]. unfold tally. cbn [filter fst snd magnitude]. rewrite I1. reflexivity. }
    rewrite T. reflexivity.
  - exfalso. unfold beta_plot in E. destruct (set_data2 false false (repeat (Fin 1) 5) (repeat (Fin 1) 5) None) eqn:SD; [discriminate E|]. unfold set_data2 in SD. cbn in SD. discriminate SD.
Qed.
Example C196_ex : strictly [0; 1; 2] /\ exists data, set_data2 true false [Fin 5; Fin (-50)] [Fin 1; Fin 2] None = Ok data.
Proof. split; [apply strictly_012|]. eexists. reflexivity. Qed.
