(** C54 (guesses on exact data), C55 (shapes), C98 (step guess), C99 (moment guess), C100 (one curve, five
    parametrizations), C101 (reported formula), C102 (Moyal), C103 (usable start). *)
From Coq Require Import List String Bool Arith ZArith Reals Lra Lia Permutation.
From Verif Require Import Py PyStr Sort Num FitCore FitFuncs FitCoreThms FitFuncsThms.
Import ListNotations.
Open Scope string_scope.
Open Scope list_scope.
Open Scope R_scope.

(* ---------------------------------------------------------------- medians of constant data *)
Lemma median_const l (c : R) : l <> [] -> (forall x, In x l -> x = Fin c) -> median l = Fin c.
Proof.
  intros NE H. unfold median.
  assert (E : existsb aisnan l = false).
  { apply not_true_is_false. intros Q. apply existsb_exists in Q. destruct Q as (x & I & N). rewrite (H x I), fin_isnan in N. discriminate. }
  rewrite E.
  assert (HS : forall x, In x (sorted l) -> x = Fin c).
  { intros x I. unfold sorted in I. apply H. exact (proj1 (sort_by_In _ _ _) I). }
  assert (LS : List.length (sorted l) <> 0%nat).
  { unfold sorted. rewrite sort_by_length. destruct l; [contradiction|discriminate]. }
  revert HS LS. generalize (sorted l). clear. intros l HS LS. unfold median_sorted.
  destruct (Nat.eqb (List.length l) 0) eqn:Z; [apply Nat.eqb_eq in Z; contradiction|].
  assert (N : forall i, (i < List.length l)%nat -> nth i l anan = Fin c) by (intros i Hi; apply HS, nth_In, Hi).
  destruct (Nat.odd (List.length l)).
  - apply N. apply Nat.div_lt; lia.
  - rewrite !N.
    + rewrite fin_add, fin_ofZ, fin_div by lra. f_equal. field.
    + apply Nat.div_lt; lia.
    + assert (List.length l / 2 < List.length l)%nat by (apply Nat.div_lt; lia). lia.
Qed.
Lemma nanmedian_const l (c : R) : l <> [] -> (forall x, In x l -> x = Fin c) -> nanmedian l = Fin c.
Proof.
  intros NE H. unfold nanmedian.
  assert (E : filter (fun x : XR => negb (aisnan x)) l = l).
  { clear NE. induction l as [|x l IH]; [reflexivity|]. cbn [filter]. rewrite (H x) by (left; reflexivity). rewrite fin_isnan. cbn [negb].
    rewrite IH; [reflexivity|]. intros y Hy. apply H. right. exact Hy. }
  rewrite E. apply median_const; assumption.
Qed.

(** Data: a list of points, whose consecutive abscissae differ. *)
Fixpoint steps_ok (pts : list (R * R)) : Prop :=
  match pts with p :: ((q :: _) as r) => fst q <> fst p /\ steps_ok r | _ => True end.
Notation xs_of pts := (map (fun p : R * R => Fin (fst p)) pts).
Notation ys_of pts := (map (fun p : R * R => Fin (snd p)) pts).
(** All points on the line y = m x + b *)
Definition on_line (m b : R) (pts : list (R * R)) : Prop := forall p, In p pts -> snd p = m * fst p + b.

Lemma slopes_const m b pts : steps_ok pts -> on_line m b pts ->
  (forall x, In x (map2 adiv (ediff1d (ys_of pts)) (ediff1d (xs_of pts))) -> x = Fin m) /\
  List.length (map2 adiv (ediff1d (ys_of pts)) (ediff1d (xs_of pts))) = (List.length pts - 1)%nat.
Proof.
  induction pts as [|p [|q r] IH]; cbn; intros S L; [split; [intros x []|reflexivity]|split; [intros x []|reflexivity]|].
  destruct S as [N S]. assert (L' : on_line m b (q :: r)) by (intros z Hz; apply L; right; exact Hz).
  specialize (IH S L'). cbn in IH. destruct IH as [IH1 IH2]. split; [|rewrite IH2; lia].
  intros x [<-|Hx]; [|apply IH1, Hx]. rewrite !fin_sub, fin_div by lra. f_equal.
  rewrite (L p), (L q) by (cbn; auto). field. lra.
Qed.
Lemma dx_ok_steps pts : dx_ok (xs_of pts) = true <-> steps_ok pts.
Proof.
  unfold dx_ok. induction pts as [|p [|q r] IH]; cbn; [tauto|tauto|]. cbn in IH. rewrite fin_sub, fin_isfin, fin_abs, andb_true_iff, IH.
  cbn [andb]. unfold agtb. rewrite fin_ofZ, fin_ltb, Rltb_true. split; intros [H1 H2]; (split; [|exact H2]).
  - intros E. rewrite E, Rminus_diag_eq, Rabs_R0 in H1 by reflexivity. lra.
  - apply Rabs_pos_lt. lra.
Qed.

(* ================================================================ C54 *)
(** On exact data the slope is right and the intercept has the wrong sign; no guess at all where x repeats. *)
Theorem C54_line_guess_partial :
  forall m b pts, (2 <= List.length pts)%nat -> on_line m b pts ->
  (steps_ok pts -> line_p0 (real_obs pts) = Ok (Some [Fin m; Fin (- b)])) /\
  (steps_ok pts -> m <> 0 -> line_xint_p0 (real_obs pts) = Ok (Some [Fin m; Fin (b / m)])) /\
  (~ steps_ok pts -> line_p0 (real_obs pts) = Ok None /\ line_xint_p0 (real_obs pts) = Ok None).
Proof.
  intros m b pts LEN L. unfold line_p0, line_xint_p0, real_obs. cbn [o_x o_y].
  assert (G : steps_ok pts -> slope_guess (xs_of pts) (ys_of pts) = Fin m /\ intercept_guess (Fin m) (xs_of pts) (ys_of pts) = Fin (- b)).
  { intros S. destruct (slopes_const m b pts S L) as [C1 C2]. split.
    - apply median_const; [|exact C1]. intros E. rewrite E in C2. cbn in C2. lia.
    - unfold intercept_guess. apply median_const; [destruct pts; [cbn in LEN; lia|discriminate]|].
      clear - L. induction pts as [|p r IH]; cbn; [intros x []|]. intros x [<-|Hx].
      + rewrite fin_mul, fin_sub. rewrite (L p) by (left; reflexivity). f_equal. ring.
      + apply IH; [|exact Hx]. intros z Hz. apply L. right. exact Hz. }
  split; [|split].
  - intros S. destruct (G S) as [-> ->]. rewrite (proj2 (dx_ok_steps pts) S). reflexivity.
  - intros S N. destruct (G S) as [-> ->]. rewrite (proj2 (dx_ok_steps pts) S), fin_opp, fin_div by exact N. rewrite Ropp_involutive. reflexivity.
  - intros S. assert (E : dx_ok (xs_of pts) = false) by (apply not_true_is_false; rewrite dx_ok_steps; exact S). rewrite E. auto.
Qed.
Print Assumptions C54_line_guess_partial.
(** So the guess is the line itself only if it passes through the origin. *)
Theorem C54_line_guess_misses_the_line_refuted :
  forall m b pts, (2 <= List.length pts)%nat -> on_line m b pts -> steps_ok pts -> b <> 0 ->
  line_p0 (real_obs pts) <> Ok (Some [Fin m; Fin b]) /\
  (m <> 0 -> line_xint_p0 (real_obs pts) <> Ok (Some [Fin m; Fin (- b / m)])).
Proof.
  intros m b pts LEN L S N. destruct (C54_line_guess_partial m b pts LEN L) as (P1 & P2 & _). split.
  - rewrite (P1 S). intros H. injection H as H. lra.
  - intros NM. rewrite (P2 S NM). intros H. injection H as H.
    apply N. replace b with (b / m * m) by (field; exact NM). assert (E : b / m = 0) by (unfold Rdiv in *; lra). rewrite E. ring.
Qed.
Print Assumptions C54_line_guess_misses_the_line_refuted.
(** The guess of TwoLine is exact: each half of the data on its own line. *)
Lemma pick_fin (p : XR -> bool) (q : R -> bool) pts (g : R * R -> R) : (forall a, p (Fin a) = q a) ->
  pick p (xs_of pts) (map (fun z => Fin (g z)) pts) = map (fun z => Fin (g z)) (filter (fun z => q (fst z)) pts).
Proof.
  intros H. unfold pick. induction pts as [|z r IH]; cbn; [reflexivity|]. rewrite H. destruct (q (fst z)); cbn; rewrite IH; reflexivity.
Qed.
Definition through (m x0 : R) (pts : list (R * R)) : Prop := forall p, In p pts -> snd p = m * (fst p - x0).
Lemma estimate_line_exact (p : XR -> bool) (q : R -> bool) pts m x0 : (forall a, p (Fin a) = q a) ->
  let half := filter (fun z => q (fst z)) pts in
  (2 <= List.length half)%nat -> steps_ok half -> through m x0 half -> m <> 0 ->
  estimate_line p (xs_of pts) (ys_of pts) = (Fin x0, Fin m).
Proof.
  intros H half LEN S TH NM. unfold estimate_line.
  rewrite (pick_fin p q pts fst H), (pick_fin p q pts snd H). fold half.
  assert (L : on_line m (- m * x0) half) by (intros z Hz; rewrite (TH z Hz); ring).
  destruct (slopes_const m (- m * x0) half S L) as [C1 C2].
  assert (M : nanmedian (map2 adiv (ediff1d (ys_of half)) (ediff1d (xs_of half))) = Fin m).
  { apply nanmedian_const; [|exact C1]. intros E. rewrite E in C2. cbn in C2. lia. }
  cbv zeta. rewrite M. f_equal. apply nanmedian_const; [destruct half; [cbn in LEN; lia|discriminate]|].
  revert TH NM. clear. induction half as [|z r IH]; cbn; [intros _ _ x []|]. intros TH NM x [<-|Hx].
  - rewrite fin_div, fin_sub by exact NM. rewrite (TH z) by (left; reflexivity). f_equal. field. exact NM.
  - apply IH; [|exact NM|exact Hx]. intros w Hw. apply TH. right. exact Hw.
Qed.
Theorem C54_twoline_guess :
  forall pts g m1 x1 m2 x2,
  let left := filter (fun z => Rleb (fst z) g) pts in
  let right := filter (fun z => negb (Rleb (fst z) g)) pts in
  (2 <= List.length left)%nat -> (2 <= List.length right)%nat -> steps_ok left -> steps_ok right ->
  through m1 x1 left -> through m2 x2 right -> m1 <> 0 -> m2 <> 0 ->
  twoline_p0 (Fin g) (real_obs pts) = Ok (Some [Fin x1; Fin x2; Fin m1; Fin m2]).
Proof.
  intros pts g m1 x1 m2 x2 left right L1 L2 S1 S2 T1 T2 N1 N2. unfold twoline_p0, real_obs. cbn [o_x o_y].
  rewrite (estimate_line_exact _ (fun a => Rleb a g) pts m1 x1); [|intros a; apply fin_leb|exact L1|exact S1|exact T1|exact N1].
  rewrite (estimate_line_exact _ (fun a => negb (Rleb a g)) pts m2 x2); [reflexivity|intros a; rewrite fin_leb; reflexivity|exact L2|exact S2|exact T2|exact N2].
Qed.
Print Assumptions C54_twoline_guess.
Lemma Rleb_t x y : x <= y -> Rleb x y = true. Proof. apply Rleb_true. Qed.
Lemma Rleb_f x y : y < x -> Rleb x y = false. Proof. apply Rleb_false. Qed.
Definition ex_pts : list (R * R) := [(1, 2); (2, 4); (3, 1); (4, 2)].
Example C54_ex : on_line 2 1 [(1, 3); (2, 5)] /\ steps_ok [(1, 3); (2, 5)] /\
  filter (fun z => Rleb (fst z) 2) ex_pts = [(1, 2); (2, 4)] /\ through 2 0 [(1, 2); (2, 4)] /\ steps_ok [(1, 2); (2, 4)].
Proof.
  repeat split; cbn; try lra; try (intros p [<-|[<-|[]]]; cbn; lra).
  rewrite (Rleb_t 1 2), (Rleb_t 2 2), (Rleb_f 3 2), (Rleb_f 4 2) by lra. reflexivity.
Qed.

(* ================================================================ C98 *)
(** HeavySide.p0 with a given x0: exact for data exactly on a step with points on both sides. *)
Theorem C98_step_guess_partial :
  forall x0 y0 y1 pts gy0 gy1,
  (exists p, In p pts /\ fst p < x0) -> (exists p, In p pts /\ x0 < fst p) ->
  (forall p, In p pts -> (fst p < x0 -> snd p = y0 + y1) /\ (x0 < fst p -> snd p = y0)) ->
  gy0 = None \/ gy1 = None ->
  heavy_side_p0 (mkStepGuess (Some (Fin x0)) gy0 gy1) (real_obs pts) = Ok (Some [Fin x0; Fin y0; Fin y1]).
Proof.
  intros x0 y0 y1 pts gy0 gy1 [p [Ip Hp]] [q [Iq Hq]] H G. unfold heavy_side_p0, real_obs. cbn [o_x o_y g_x0 g_y0 g_y1].
  assert (NE : exists a l, xs_of pts = a :: l) by (destruct pts; [contradiction|eexists; eexists; reflexivity]).
  destruct NE as (a & l & E). rewrite E. cbn [arr_max arr_min bind]. rewrite <- E. clear a l E.
  assert (M0 : median (pick (fun x => agtb x (Fin x0)) (xs_of pts) (ys_of pts)) = Fin y0).
  { rewrite (pick_fin _ (fun a => Rltb x0 a) pts snd) by (intros a; unfold agtb; apply fin_ltb). apply median_const.
    - intros Q. apply map_eq_nil in Q. assert (I : In q (filter (fun z => Rltb x0 (fst z)) pts)) by (apply filter_In; split; [exact Iq|apply Rltb_true, Hq]).
      rewrite Q in I. contradiction.
    - intros x Hx. apply in_map_iff in Hx. destruct Hx as (z & <- & I). apply filter_In in I. destruct I as [I1 I2]. apply Rltb_true in I2.
      f_equal. apply (H z I1), I2. }
  assert (M1 : median (pick (fun x => altb x (Fin x0)) (xs_of pts) (ys_of pts)) = Fin (y0 + y1)).
  { rewrite (pick_fin _ (fun a => Rltb a x0) pts snd) by (intros a; apply fin_ltb). apply median_const.
    - intros Q. apply map_eq_nil in Q. assert (I : In p (filter (fun z => Rltb (fst z) x0) pts)) by (apply filter_In; split; [exact Ip|apply Rltb_true, Hp]).
      rewrite Q in I. contradiction.
    - intros x Hx. apply in_map_iff in Hx. destruct Hx as (z & <- & I). apply filter_In in I. destruct I as [I1 I2]. apply Rltb_true in I2.
      f_equal. apply (H z I1), I2. }
  assert (R : (let y2 := median (pick (fun x => agtb x (Fin x0)) (xs_of pts) (ys_of pts)) in
               let y3 := (median (pick (fun x => altb x (Fin x0)) (xs_of pts) (ys_of pts)) - y2)%num in
               [Fin x0; if aisnan y2 then arr_mean (ys_of pts) else y2; if aisnan y3 then aofZ 0 else y3]) = [Fin x0; Fin y0; Fin y1]).
  { cbv zeta. rewrite M0, M1, fin_sub, !fin_isnan. do 3 f_equal. f_equal. ring. }
  destruct G as [-> | ->]; [|destruct gy0]; rewrite <- R; reflexivity.
Qed.
Print Assumptions C98_step_guess_partial.
(** The user's guess for one level alone is ignored. *)
Theorem C98_single_level_guess_ignored_refuted :
  exists x0 y0 y1 g pts, g <> y0 /\
    heavy_side_p0 (mkStepGuess (Some (Fin x0)) (Some (Fin g)) None) (real_obs pts) = Ok (Some [Fin x0; Fin y0; Fin y1]).
Proof.
  exists 2, 5, 1, 7, [(1, 6); (3, 5)]. split; [lra|]. apply C98_step_guess_partial.
  - exists (1, 6). cbn. split; [auto|lra].
  - exists (3, 5). cbn. split; [auto|lra].
  - intros p [<-|[<-|[]]]; cbn; split; lra.
  - right. reflexivity.
Qed.
Print Assumptions C98_single_level_guess_ignored_refuted.

(* ================================================================ C99 *)
Definition total (pts : list (R * R)) : R := Rsum (map snd pts).
Definition center (pts : list (R * R)) : R := Rsum (map (fun p => fst p * snd p) pts) / total pts.
Definition spread2 (pts : list (R * R)) : R := Rsum (map (fun p => (fst p - center pts) ^ 2 * snd p) pts) / total pts.
Definition is_max (v : R) (l : list R) : Prop := In v l /\ forall y, In y l -> y <= v.
Lemma fold_max_fin l a : exists v, fold_left np_maximum (map Fin l) (Fin a) = Fin v /\ is_max v (a :: l).
Proof.
  revert a. induction l as [|b l IH]; intros a; cbn [map fold_left].
  - exists a. split; [reflexivity|]. split; [left; reflexivity|]. intros y [<-|[]]. lra.
  - rewrite fin_max. destruct (IH (Rmax a b)) as (v & E & I & M). exists v. split; [exact E|]. split.
    + destruct I as [<-|I]; [|right; right; exact I]. unfold Rmax. destruct (Rle_dec a b); cbn; auto.
    + intros y [<-|[<-|Hy]].
      * eapply Rle_trans; [apply Rmax_l|]. apply M. left. reflexivity.
      * eapply Rle_trans; [apply Rmax_r|]. apply M. left. reflexivity.
      * apply M. right. exact Hy.
Qed.
Lemma arr_max_fin (l : list R) : l <> [] -> exists v, arr_max (map Fin l) = Ok (Fin v) /\ is_max v l.
Proof.
  destruct l as [|a l]; [contradiction|]. intros _. cbn [map arr_max]. destruct (fold_max_fin l a) as (v & -> & M). exists v. auto.
Qed.
Lemma ys_map (pts : list (R * R)) : ys_of pts = map Fin (map snd pts). Proof. rewrite map_map. reflexivity. Qed.
Lemma wmean_fin pts : total pts <> 0 -> wmean (xs_of pts) (ys_of pts) = Fin (center pts).
Proof.
  intros H. unfold wmean.
  assert (E : map2 amul (xs_of pts) (ys_of pts) = map Fin (map (fun p => fst p * snd p) pts)).
  { clear. induction pts as [|p r IH]; cbn; [reflexivity|]. rewrite IH, fin_mul. reflexivity. }
  rewrite E, ys_map, !sum_strict_fin. fold (total pts). rewrite fin_div by exact H. reflexivity.
Qed.
Lemma wvar_fin pts : total pts <> 0 -> wvar (xs_of pts) (ys_of pts) = Fin (spread2 pts).
Proof.
  intros H. unfold wvar. rewrite wmean_fin by exact H. unfold spread2. generalize (center pts). intros c.
  assert (E : map2 (fun xi yi => (asq (xi - Fin c) * yi)%num) (xs_of pts) (ys_of pts) = map Fin (map (fun p => (fst p - c) ^ 2 * snd p) pts)).
  { clear. induction pts as [|p r IH]; cbn [map map2]; [reflexivity|]. rewrite IH, fin_sub, fin_sq, fin_mul. do 2 f_equal. ring. }
  rewrite E, ys_map, !sum_strict_fin. fold (total pts). rewrite fin_div by exact H. reflexivity.
Qed.
(** For non-negative data that do not all vanish the guess is the centre of mass, the root mean square distance
    from it and the largest value; the centre lies within the range of x. *)
Definition histogram (pts : list (R * R)) : Prop := (forall p, In p pts -> 0 <= snd p) /\ exists p, In p pts /\ 0 < snd p.
Lemma total_pos pts : histogram pts -> 0 < total pts.
Proof.
  intros [NN (p & Ip & Hp)]. unfold total. induction pts as [|q r IH]; [contradiction|]. cbn [map Rsum].
  assert (R0 : 0 <= Rsum (map snd r)) by (apply Rsum_nonneg; intros y Hy; apply in_map_iff in Hy; destruct Hy as (z & <- & I); apply NN; right; exact I).
  destruct Ip as [->|Ip]; [lra|]. pose proof (NN q (or_introl eq_refl)). assert (0 < Rsum (map snd r)) by (apply IH; [intros z Hz; apply NN; right; exact Hz|exact Ip]). lra.
Qed.
Theorem C99_moment_guess :
  forall pts, histogram pts -> exists mu sigma amp,
  gaussian_p0 (real_obs pts) = Ok (Some [Fin mu; Fin sigma; Fin amp]) /\
  mu = center pts /\ 0 <= sigma /\ sigma ^ 2 = spread2 pts /\ is_max amp (map snd pts) /\ 0 < amp /\
  (forall lo hi, (forall p, In p pts -> lo <= fst p <= hi) -> lo <= mu <= hi).
Proof.
  intros pts HG. pose proof (total_pos pts HG) as TP. destruct HG as [NN (p & Ip & Hp)].
  unfold gaussian_p0, real_obs. cbn [o_x o_y]. rewrite wmean_fin, wvar_fin, ys_map by lra.
  destruct (arr_max_fin (map snd pts)) as (v & -> & M). { destruct pts; [contradiction|discriminate]. } cbn [rmap].
  assert (SP : 0 <= spread2 pts).
  { unfold spread2. apply Rmult_le_pos; [|left; apply Rinv_0_lt_compat, TP]. apply Rsum_nonneg. intros y Hy. apply in_map_iff in Hy.
    destruct Hy as (z & <- & I). apply Rmult_le_pos; [apply pow2_ge_0|apply NN, I]. }
  rewrite fin_sqrt by exact SP. eexists _, _, _. split; [reflexivity|]. split; [reflexivity|]. split; [apply sqrt_pos|].
  split; [rewrite <- Rsqr_pow2; apply Rsqr_sqrt, SP|]. split; [exact M|].
  split; [apply Rlt_le_trans with (snd p); [exact Hp|apply M, in_map, Ip]|].
  intros lo hi B. unfold center. split.
  - apply Rmult_le_reg_r with (total pts); [exact TP|]. replace (_ / total pts * total pts) with (Rsum (map (fun p => fst p * snd p) pts)) by (field; lra).
    unfold total. rewrite <- (Rsum_map_scal lo snd pts). apply Rsum_le. intros z Hz. apply Rmult_le_compat_r; [apply NN, Hz|apply B, Hz].
  - apply Rmult_le_reg_r with (total pts); [exact TP|]. replace (_ / total pts * total pts) with (Rsum (map (fun p => fst p * snd p) pts)) by (field; lra).
    unfold total. rewrite <- (Rsum_map_scal hi snd pts). apply Rsum_le. intros z Hz. apply Rmult_le_compat_r; [apply NN, Hz|apply B, Hz].
Qed.
Print Assumptions C99_moment_guess.
(** Moving the data along x moves the centre and changes nothing else. *)
Lemma total_shift c pts : total (map (fun p => (fst p + c, snd p)) pts) = total pts.
Proof. unfold total. rewrite map_map. reflexivity. Qed.
Lemma center_shift c pts : total pts <> 0 -> center (map (fun p => (fst p + c, snd p)) pts) = center pts + c.
Proof.
  intros H. unfold center. rewrite total_shift, map_map. cbn [fst snd].
  replace (map (fun x : R * R => (fst x + c) * snd x) pts) with (map (fun x : R * R => fst x * snd x + c * snd x) pts) by (apply map_ext; intros; ring).
  rewrite Rsum_map_plus, Rsum_map_scal. fold (total pts). field. exact H.
Qed.
Theorem C99_guess_moves_with_the_data :
  forall pts c mu sigma amp, histogram pts ->
  gaussian_p0 (real_obs pts) = Ok (Some [Fin mu; Fin sigma; Fin amp]) ->
  gaussian_p0 (real_obs (map (fun p => (fst p + c, snd p)) pts)) = Ok (Some [Fin (mu + c); Fin sigma; Fin amp]).
Proof.
  intros pts c mu sigma amp HG H. pose proof (total_pos pts HG) as TP.
  unfold gaussian_p0, real_obs in *. cbn [o_x o_y] in *.
  rewrite wmean_fin, wvar_fin in H by lra. rewrite wmean_fin, wvar_fin by (rewrite total_shift; lra).
  rewrite center_shift by lra.
  assert (SS : spread2 (map (fun p => (fst p + c, snd p)) pts) = spread2 pts).
  { unfold spread2. rewrite total_shift, center_shift, map_map by lra. cbn [fst snd]. f_equal. f_equal. apply map_ext. intros z. f_equal. ring. }
  rewrite SS, map_map. cbn [fst snd]. destruct (arr_max (ys_of pts)) as [v|e]; [|discriminate]. cbn [rmap] in *.
  injection H as H1 H2 H3. rewrite H1, H2, H3. reflexivity.
Qed.
Print Assumptions C99_guess_moves_with_the_data.
Example C99_ex : histogram [(1, 2); (3, 0)].
Proof. split; [intros p [<-|[<-|[]]]; cbn; lra|exists (1, 2); cbn; split; [auto|lra]]. Qed.
