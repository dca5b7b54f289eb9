(** C221 (projections of orbit histograms), C222 (the lines of an orbit histogram). *)
From Coq Require Import Reals List String Ascii Bool Arith ZArith Lra Lia.
From Verif Require Import Py PyStr Num Sort Activity ActivityThms FitFuncsThms Hist HistThms HistMoreThms HistPlot HistPlotThms Icme Orbits OrbitsThms OrbitProj.
Import ListNotations.
Open Scope list_scope.

(** the coordinate projected on, and the other one *)
Definition main_of (on_x : bool) (r : XR * XR * XR) : XR := if on_x then fst (fst r) else snd (fst r).
Definition other_of (on_x : bool) (r : XR * XR * XR) : XR := if on_x then snd (fst r) else fst (fst r).
(** the data of a leg that lie in a bin *)
Definition of_leg_in {X} (l : leg) (inside : X -> bool) (rows : list X) (ls : list (option leg)) : list X :=
  map fst (filter (fun rl => inside (fst rl) && in_leg l (snd rl)) (combine rows ls)).

Lemma rows_of_projection (lg : bool) (f : XR * XR * XR -> XR) (g : XR * XR * XR -> XR) data :
  set_data1 lg (map (fun r => let v := f r in if lg then exp10 v else v) data) (Some (map g data)) = map (fun r => (coord lg (if lg then exp10 (f r) else f r), g r)) data.
Proof. unfold set_data1. rewrite map_map. induction data as [|r data IH]; [reflexivity|]. cbn [map combine]. f_equal. exact IH. Qed.
Lemma ones_of_projection (lg : bool) (f : XR * XR * XR -> XR) data :
  set_data1 lg (map (fun r => let v := f r in if lg then exp10 v else v) data) None = map (fun r => (coord lg (if lg then exp10 (f r) else f r), Fin 1)) data.
Proof. unfold set_data1. rewrite !map_map. induction data as [|r data IH]; [reflexivity|]. cbn [map combine]. rewrite IH. rewrite fin_a1. reflexivity. Qed.

(* ================================================================ C221 *)
(** With project_counts, on either axis and for any weights: the bins and the scale are those of the axis, and each bin shows for each leg
    how many data of the histogram lie in it. *)
Theorem C221_projected_counts : forall on_x (lx ly : bool) (ex ey : list R) labels data ls, let e := if (on_x : bool) then ex else ey in
  ordered e -> data <> [] ->
  exists p t, orbit_project on_x true lx ly (map Fin ex) (map Fin ey) labels data = Ok p /\ proj_table p ls = Ok t /\
    pr_edges p = map Fin e /\ pr_log p = (if on_x then lx else ly) /\ pr_xlabel p = (if on_x then fst (fst labels) else snd (fst labels)) /\
    forall i l, (i < nbin e)%nat ->
      leg_value nat Nat.eqb t i l = Fin (INR (List.length (of_leg_in l (fun r => bin e i (main_of on_x r)) data ls))).
Proof.
  intros on_x lx ly ex ey labels data ls e O NE. unfold orbit_project. cbv zeta. cbn [bind].
  set (lg := if on_x then lx else ly).
  set (rows := map (fun r => (coord lg (if lg then exp10 (main_of on_x r) else main_of on_x r), Fin 1)) data).
  assert (RW : set_data1 lg (map (fun r => let v := if on_x then fst (fst r) else snd (fst r) in if lg then exp10 v else v) data) None = rows)
    by (exact (ones_of_projection lg (main_of on_x) data)).
  assert (ED : (if on_x then map Fin ex else map Fin ey) = map Fin e) by (unfold e; destruct on_x; reflexivity).
  destruct (C157_counts_1d e rows ls FDefault O) as (t & E & Q).
  { intros r I. unfold rows in I. apply in_map_iff in I. destruct I as (q & <- & _). reflexivity. }
  { unfold rows. destruct data; [contradiction|discriminate]. }
  { left. reflexivity. }
  eexists. exists t. split; [reflexivity|]. unfold proj_table. cbn [pr_edges pr_rows pr_log pr_xlabel]. rewrite ED.
  split. { transitivity (orbit_agg1 N1None nolim (map Fin e) FDefault rows ls); [|exact E]. f_equal. exact RW. }
  split; [reflexivity|]. split; [reflexivity|]. split; [reflexivity|].
  intros i l L. rewrite (Q i l L). do 2 f_equal. unfold number1, of_leg_in, rows, tally. rewrite map_length.
  clear - L. revert ls. induction data as [|r data IH]; intros [|lab ls]; try reflexivity. cbn [map combine filter fst snd]. rewrite bin_roundtrip.
  destruct (bin e i (main_of on_x r) && in_leg l lab)%bool; cbn [List.length]; [f_equal|]; apply IH.
Qed.
Print Assumptions C221_projected_counts.

Lemma leg_means e (rows : list (XR * option R)) ls i l : ordered e -> (i < nbin e)%nat ->
  members (nat * leg) (kl_eqb nat Nat.eqb) (map (fun rl => (with_leg nat (fst (fst rl)) (snd rl), snd (fst rl)))
    (combine (rows1 (map Fin e) (map (fun r => (fst r, cell (snd r))) rows)) ls)) (i, l)
  = map cell (map snd (of_leg_in l (fun r => bin e i (fst r)) rows ls)).
Proof.
  intros O L. unfold members, rows1, of_leg_in. rewrite map_map. cbn [fst snd]. revert ls. induction rows as [|r rows IH]; intros [|lab ls]; try reflexivity.
  cbn [map combine filter fst snd]. rewrite <- (cut_match e (fst r) i O L). unfold with_leg, kl_eqb in *.
  destruct (cut (map Fin e) (fst r)) as [q|], lab as [l'|]; cbn [fst snd andb in_leg]; rewrite ?andb_false_r; try apply IH.
  destruct (Nat.eqb q i && leg_eqb l' l)%bool; cbn [map fst snd]; [f_equal|]; apply IH.
Qed.
(** Without project_counts, for unweighted data: each bin shows for each leg the mean of the other coordinate, on the scale of the data, over
    the data of the leg in the bin for which it lies in the range of the other axis; nothing (NaN) without such data. *)
Theorem C221_projected_means : forall on_x (lx ly : bool) (ex ey : list R) labels data ls,
  let e := if (on_x : bool) then ex else ey in let eo := if on_x then ey else ex in let lo := if on_x then ly else lx in
  ordered e -> eo <> [] -> unweighted data ->
  two_values (present (map (fun r => shown_y lo eo (other_of on_x r)) data)) ->
  exists p t, orbit_project on_x false lx ly (map Fin ex) (map Fin ey) labels data = Ok p /\ proj_table p ls = Ok t /\
    pr_edges p = map Fin e /\ pr_log p = (if on_x then lx else ly) /\ pr_xlabel p = (if on_x then fst (fst labels) else snd (fst labels)) /\
    pr_ylabel p = (if on_x then snd (fst labels) else fst (fst labels)) /\
    forall i l, (i < nbin e)%nat -> leg_value nat Nat.eqb t i l =
      mean_or_none (present (map (fun r => shown_y lo eo (other_of on_x r)) (of_leg_in l (fun r => bin e i (main_of on_x r)) data ls))).
Proof.
  intros on_x lx ly ex ey labels data ls e eo lo O NO U V. unfold orbit_project. cbv zeta. rewrite (not_weighted data U). cbn [bind].
  set (lg := if on_x then lx else ly).
  set (rows := map (fun r => (coord lg (if lg then exp10 (main_of on_x r) else main_of on_x r), shown_y lo eo (other_of on_x r))) data).
  set (masked := fun v : XR => if aleb (nth 0 (if on_x then map Fin ey else map Fin ex) anan) v && aleb v (last (if on_x then map Fin ey else map Fin ex) anan) then (if lo then exp10 v else v) else anan).
  assert (MK : forall v, masked v = cell (shown_y lo eo v)).
  { intros v. unfold masked. replace (if on_x then map Fin ey else map Fin ex) with (map Fin eo) by (unfold eo; destruct on_x; reflexivity). exact (masked_cell lo eo v NO). }
  assert (RW : set_data1 lg (map (fun r => let v := if on_x then fst (fst r) else snd (fst r) in if lg then exp10 v else v) data) (Some (map (fun r => masked (if on_x then snd (fst r) else fst (fst r))) data))
    = map (fun r => (fst r, cell (snd r))) rows).
  { etransitivity; [exact (rows_of_projection lg (main_of on_x) (fun r => masked (other_of on_x r)) data)|]. unfold rows. rewrite map_map. apply map_ext. intro r. cbn [fst snd]. f_equal. apply MK. }
  assert (ED : (if on_x then map Fin ex else map Fin ey) = map Fin e) by (unfold e; destruct on_x; reflexivity).
  eexists. eexists. split; [reflexivity|]. unfold proj_table. cbn [pr_edges pr_rows pr_log pr_xlabel pr_ylabel].
  split. { unfold orbit_agg1. reflexivity. }
  split; [exact ED|]. split; [reflexivity|]. split; [reflexivity|]. split; [reflexivity|].
  intros i l L. unfold leg_value. etransitivity.
  { match goal with |- at_key _ _ (leg_table _ _ _ _ _ (rows1 _ ?d) _) _ = _ => replace d with (map (fun r : XR * option R => (fst r, cell (snd r))) rows) by (symmetry; exact RW) end. rewrite ED. reflexivity. }
  assert (M : map snd (rows1 (map Fin e) (map (fun r => (fst r, cell (snd r))) rows)) = map cell (map snd rows)) by (unfold rows1; rewrite !map_map; reflexivity).
  assert (V' : two_values (present (map snd rows))) by (unfold rows; rewrite map_map; exact V).
  unfold leg_table. cbv zeta. rewrite M, (the_mean _ V').
  set (rs := map (fun rl => (with_leg nat (fst (fst rl)) (snd rl), snd (fst rl))) (combine (rows1 (map Fin e) (map (fun r => (fst r, cell (snd r))) rows)) ls)).
  etransitivity.
  { exact (at_tab nat Nat.eqb nat_eqb_spec (fun k => if within (None, None) (count (members (nat * leg) (kl_eqb nat Nat.eqb) rs k)) then Hist.mean (members (nat * leg) (kl_eqb nat Nat.eqb) rs k) else anan) (list_prod (bins (map Fin e)) [Inbound; Outbound]) (i, l)
     ltac:(apply in_prod_iff; split; [rewrite bins_fin; apply in_seq; lia|destruct l; cbn; tauto])). }
  cbn [within andb]. replace (within (None, None) _) with true by reflexivity. unfold rs. rewrite (leg_means e rows ls i l O L), mean_cells. do 2 f_equal.
  unfold of_leg_in, rows. clear - L. revert ls. induction data as [|r data IH]; intros [|lab ls]; try reflexivity. cbn [map combine filter fst snd]. rewrite bin_roundtrip.
  destruct (bin e i (main_of on_x r) && in_leg l lab)%bool; cbn [map fst snd]; [f_equal|]; apply IH.
Qed.
Print Assumptions C221_projected_means.
Example C221_ex : exists p t, orbit_project (T := XR) true false false false (map Fin [0; 2]) (map Fin [0; 4]) ("x", "y", "z")
    [(Fin 1, Fin 1, Fin 1); (Fin 1, Fin 3, Fin 1); (Fin 1, Fin 4, Fin 1); (Fin 2, Fin 9, Fin 1)] = Ok p
  /\ proj_table p [Some Inbound; Some Inbound; Some Outbound; Some Outbound] = Ok t
  /\ leg_value nat Nat.eqb t 0%nat Inbound = Fin 2 /\ leg_value nat Nat.eqb t 0%nat Outbound = Fin 4.
Proof.
  set (data := [(Fin 1, Fin 1, Fin 1); (Fin 1, Fin 3, Fin 1); (Fin 1, Fin 4, Fin 1); (Fin 2, Fin 9, Fin 1)]).
  assert (U : unweighted data) by (intros r I; repeat (destruct I as [<-|I]; [reflexivity|]); destruct I).
  assert (O : ordered [0; 2]) by (apply strictly_ordered; intros i j H; cbn in H; destruct j as [|[|j]]; [lia| |lia]; destruct i as [|i]; try lia; cbn; lra).
  destruct (C221_projected_means true false false [0; 2] [0; 4] ("x", "y", "z")%string data [Some Inbound; Some Inbound; Some Outbound; Some Outbound] O) as (p & t & E & Et & _ & _ & _ & _ & Q); [discriminate|exact U| |].
  { exists 1, 3. unfold data, shown_y, other_of. cbn [map fst snd nth last]. decb. cbn. repeat split; auto. lra. }
  exists p, t. split; [exact E|]. split; [exact Et|].
  split; rewrite Q by (cbn; lia); unfold data, of_leg_in, shown_y, main_of, other_of, bin, inb; cbn [combine filter nth fst snd]; decb; cbn [map fst snd nth last andb in_leg leg_eqb]; decb; cbn; unfold ActivityThms.mean; cbn; f_equal; field.
Qed.
(** A weighted histogram cannot be projected without project_counts: KeyError. *)
Theorem C221_weighted_refuted : forall on_x lx ly bx by_ labels (data : list (XR * XR * XR)) w1 w2, In (Fin w1) (map snd data) -> In (Fin w2) (map snd data) -> w1 <> w2 ->
  orbit_project on_x false lx ly bx by_ labels data = Err KeyError.
Proof.
  intros on_x lx ly bx by_ labels data w1 w2 I1 I2 N. unfold orbit_project. cbv zeta.
  replace (Nat.leb 2 _) with true; [reflexivity|]. symmetry. apply Nat.leb_le.
  assert (D : forall (l : list XR) x, In (Fin x) l -> In (Fin x) (distinct (filter notnan l))).
  { induction l as [|a l IH]; intros x I; [destruct I|]. cbn [filter]. destruct (notnan a) eqn:NA.
    - cbn [distinct]. destruct (existsb (aeqb a) (filter notnan l)) eqn:E.
      + destruct I as [->|I]; [|apply IH, I]. apply IH. apply existsb_exists in E. destruct E as (v & Iv & Q). destruct v as [v| | |]; try discriminate. rewrite fin_eqb in Q. apply Reqb_true in Q. subst v. apply filter_In in Iv. apply Iv.
      + destruct I as [->|I]; [left; reflexivity|right; apply IH, I].
    - destruct I as [->|I]; [discriminate|apply IH, I]. }
  pose proof (D _ _ I1) as D1. pose proof (D _ _ I2) as D2. destruct (distinct (filter notnan (map snd data))) as [|a [|b r]]; [destruct D1| |cbn; lia].
  exfalso. destruct D1 as [->|[]], D2 as [D2|[]]. apply N. congruence.
Qed.
Print Assumptions C221_weighted_refuted.
(** With project_counts the counts are shown under the label of the other axis (or of the weights). *)
Theorem C221_count_label_refuted : forall on_x lx ly bx by_ xl yl zl (data : list (XR * XR * XR)), unweighted data ->
  exists p, orbit_project on_x true lx ly bx by_ (xl, yl, zl) data = Ok p /\ pr_ylabel p = (if on_x then yl else xl) /\
  (forall r, In r (pr_rows p) -> snd r = Fin 1).
Proof.
  intros on_x lx ly bx by_ xl yl zl data U. unfold orbit_project. cbv zeta. rewrite (not_weighted data U). cbn [bind fst snd]. eexists. split; [reflexivity|]. split; [reflexivity|].
  cbn [pr_rows]. unfold set_data1. intros r I. destruct r as [a b]. apply in_combine_r in I. apply in_map_iff in I. destruct I as (q & <- & _). apply fin_a1.
Qed.
Print Assumptions C221_count_label_refuted.

(* ================================================================ C222 *)
(** make_plot draws one line for each leg, inbound before outbound, labelled with the leg, as steps unless asked otherwise; a line has a
    point for every bin in order, at the middle of the bin on the scale of the data, as high as the leg's value there. *)
Theorem C222_lines_of_the_legs : forall lg clim e f style (data : list (XR * XR)) ls,
  exists t lines, orbit_agg1 N1None clim (map Fin e) f data ls = Ok t /\ orbit_lines N1None lg clim (map Fin e) f style data ls = Ok lines /\
  map ll_label lines = [Inbound; Outbound] /\
  forall line, In line lines -> ll_style line = (match style with Some s => s | None => "steps-mid"%string end) /\
    map fst (ll_points line) = middles lg e /\
    map snd (ll_points line) = map (fun i => leg_value nat Nat.eqb t i (ll_label line)) (seq 0 (nbin e)).
Proof.
  intros lg clim e f style data ls. eexists. eexists. split; [reflexivity|]. split; [reflexivity|]. split; [reflexivity|].
  assert (P : map (fun i : nat => let m := mid (nth i (intervals (map Fin e)) (anan, anan)) in if lg then exp10 m else m) (bins (map Fin e)) = middles lg e).
  { rewrite <- plotted_middles. unfold bins. symmetry. rewrite <- (map_map (fun i => nth i (intervals (map Fin e)) (anan, anan)) (fun i => let m := mid i in if lg then exp10 m else m)).
    f_equal. generalize (intervals (map Fin e)). intros l. transitivity (map (fun i => nth i l (anan, anan)) (seq 0 (List.length l))); [|reflexivity].
    symmetry. clear. induction l as [|a l IH]; [reflexivity|]. cbn [List.length seq map nth]. f_equal. rewrite <- seq_shift, map_map. exact IH. }
  assert (B : bins (map Fin e) = seq 0 (nbin e)) by apply bins_fin.
  intros line [<-|[<-|[]]]; cbn [ll_style ll_points ll_label]; (split; [reflexivity|]); rewrite !map_map; cbn [fst snd]; (split; [exact P|rewrite B; reflexivity]).
Qed.
Print Assumptions C222_lines_of_the_legs.
(** ... so a histogram of counts draws, for each leg, how many of its data lie in each bin. *)
Theorem C222_lines_of_counts : forall lg e style (data : list (XR * XR)) ls, ordered e -> (forall r, In r data -> snd r = Fin 1) -> data <> [] ->
  exists li lo, orbit_lines N1None lg nolim (map Fin e) FDefault style data ls = Ok [li; lo] /\ ll_label li = Inbound /\ ll_label lo = Outbound /\
  map snd (ll_points li) = map (fun i => Fin (INR (number1 e i Inbound data ls))) (seq 0 (nbin e)) /\
  map snd (ll_points lo) = map (fun i => Fin (INR (number1 e i Outbound data ls))) (seq 0 (nbin e)).
Proof.
  intros lg e style data ls O U NE. destruct (C157_counts_1d e data ls FDefault O U NE (or_introl eq_refl)) as (t & E & Q).
  destruct (C222_lines_of_the_legs lg nolim e FDefault style data ls) as (t' & lines & E' & L & LL & PP).
  assert (t' = t) by (apply (f_equal (fun r => match r with Ok x => x | Err _ => t end)) in E, E'; congruence). subst t'.
  destruct lines as [|li [|lo [|x r]]]; try discriminate. exists li, lo. assert (L1 : ll_label li = Inbound) by (cbn in LL; congruence). assert (L2 : ll_label lo = Outbound) by (cbn in LL; congruence).
  split; [exact L|]. split; [exact L1|]. split; [exact L2|].
  destruct (PP li (or_introl eq_refl)) as (_ & _ & P1). destruct (PP lo (or_intror (or_introl eq_refl))) as (_ & _ & P2). rewrite P1, P2, L1, L2.
  split; apply map_ext_in; intros i I; apply in_seq in I; apply Q; lia.
Qed.
Print Assumptions C222_lines_of_counts.
Example C222_ex : exists li lo, orbit_lines (T := XR) N1None false nolim (map Fin [0; 2]) FDefault None [(Fin 1, Fin 1); (Fin 2, Fin 1); (Fin 1, Fin 1)] [Some Inbound; Some Outbound; Some Inbound] = Ok [li; lo]
  /\ map snd (ll_points li) = [Fin 2] /\ map snd (ll_points lo) = [Fin 1].
Proof.
  assert (O : ordered [0; 2]) by (apply strictly_ordered; intros i j H; cbn in H; destruct j as [|[|j]]; [lia| |lia]; destruct i as [|i]; try lia; cbn; lra).
  destruct (C222_lines_of_counts false [0; 2] None [(Fin 1, Fin 1); (Fin 2, Fin 1); (Fin 1, Fin 1)] [Some Inbound; Some Outbound; Some Inbound] O) as (li & lo & E & _ & _ & A & B).
  { intros r I. repeat (destruct I as [<-|I]; [reflexivity|]). destruct I. }
  { discriminate. }
  exists li, lo. split; [exact E|]. rewrite A, B. unfold number1, tally, bin, inb. cbn [seq nbin List.length Nat.pred map combine filter nth fst snd Nat.sub]. decb. cbn. split; repeat f_equal; lra.
Qed.
