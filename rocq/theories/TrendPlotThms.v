(** C207-C211: what TrendFit draws and how it labels it. *)
From Coq Require Import Reals List String Ascii Bool Arith ZArith Lra Lia.
From Verif Require Import Py PyStr Num FitCore FitFuncs TrendFit FitPlot TrendPlot FitCoreThms FitFuncsThms FitGuessThms TrendFitThms Tight3Thms MoreFitsThms FitPlotThms.
Import ListNotations.
Open Scope string_scope.
Open Scope list_scope.
Open Scope R_scope.

(* ---------------------------------------------------------------- specification *)
(** The 1d fits belong to bins with these centres. *)
Definition centres (t : trend (T := XR)) (cs : list R) : Prop := map fst (t_ffuncs t) = map Fin cs.
(** Fit number i was used in the trend fit. *)
Definition in_trend (u : used_raw (T := XR)) (i : nat) : Prop := nth_error (u_mask u) i = Some true.
(** where the axis is logarithmic the bins are those of the logarithm *)
Definition abscissa (logx : bool) (c : R) : R := if logx then Rpower 10 c else c.
(** Parameter k of fit number i. *)
Definition parameter (t : trend (T := XR)) (k : string) (i : nat) (v : XR) : Prop :=
  exists f q, nth_error (map snd (t_ffuncs t)) i = Some f /\ ff_popt f = Some q /\ dict_get k q = Ok v.

(* ---------------------------------------------------------------- lists *)
Lemma in_select {A} m (l : list A) v : In v (select m l) <-> exists j, nth_error m j = Some true /\ nth_error l j = Some v.
Proof.
  revert l. induction m as [|b m IH]; intros [|a l]; cbn.
  - split; [intros []|intros ([|j] & H & _); discriminate].
  - split; [intros []|intros ([|j] & H & _); discriminate].
  - split; [intros []|intros ([|j] & _ & H); discriminate].
  - destruct b; cbn; rewrite IH; split.
    + intros [->|(j & H1 & H2)]; [exists 0%nat; auto|exists (S j); auto].
    + intros ([|j] & H1 & H2); cbn in *; [left; congruence|right; eauto].
    + intros (j & H1 & H2). exists (S j). auto.
    + intros ([|j] & H1 & H2); cbn in *; [discriminate|eauto].
Qed.
Lemma nth_ext_error {A} (a b : list A) : List.length a = List.length b -> (forall i x y, nth_error a i = Some x -> nth_error b i = Some y -> x = y) -> a = b.
Proof.
  revert b. induction a as [|x a IH]; intros [|y b] L H; try discriminate; [reflexivity|].
  f_equal; [exact (H 0%nat x y eq_refl eq_refl)|]. apply IH; [cbn in L; lia|]. intros i. exact (H (S i)).
Qed.
Lemma nth_some {A B} (a : list A) (b : list B) i x : List.length a = List.length b -> nth_error a i = Some x -> exists y, nth_error b i = Some y.
Proof.
  intros L H. destruct (nth_error b i) as [y|] eqn:E; [eauto|]. apply nth_error_None in E.
  assert (i < List.length a)%nat by (apply nth_error_Some; congruence). lia.
Qed.
Lemma and_mask_len a b : List.length (and_mask a b) = Nat.min (List.length a) (List.length b).
Proof. revert b. induction a as [|x a IH]; intros [|y b]; cbn; try reflexivity. rewrite IH. reflexivity. Qed.
Lemma isin_spec (x : XR) l : isin x l = true <-> exists v, In v l /\ aeqb x v = true.
Proof. unfold isin. rewrite existsb_exists. reflexivity. Qed.
Lemma isin_fin (a : R) (l : list XR) : isin (Fin a) l = true <-> In (Fin a) l.
Proof.
  rewrite isin_spec. split.
  - intros (v & H & E). destruct v as [b| | |]; try discriminate E. rewrite fin_eqb in E. apply Reqb_true in E. subst. exact H.
  - intros H. exists (Fin a). split; [exact H|]. rewrite fin_eqb. apply Reqb_true. reflexivity.
Qed.
Lemma select_map {A B} (f : A -> B) m l : select m (map f l) = map f (select m l).
Proof. revert l. induction m as [|b m IH]; intros [|a l]; cbn; try reflexivity. destruct b; cbn; rewrite IH; reflexivity. Qed.
Lemma all_fin (l : list XR) : (forall v, In v l -> exists a, v = Fin a) -> exists r, l = map Fin r.
Proof.
  induction l as [|v l IH]; intros H; [exists []; reflexivity|]. destruct (H v (or_introl eq_refl)) as [a ->].
  destruct IH as [r ->]; [intros w Hw; apply H; right; exact Hw|]. exists (a :: r). reflexivity.
Qed.
Lemma forall2_nth {A B} (P : A -> B -> Prop) l l' : Forall2 P l l' -> forall i a, nth_error l i = Some a -> exists b, nth_error l' i = Some b /\ P a b.
Proof.
  induction 1 as [|a b l l' H _ IH]; intros [|i] x E; try discriminate; cbn in *; [injection E as <-; eauto|apply IH, E].
Qed.
(** What a trend function is made from. *)
Lemma made logx ykey wkey l t u : trend_func_obs (T := XR) logx ykey wkey l t = Ok u ->
  exists p ys ws, popt_1d t = Ok p /\ p <> [] /\ column ykey p = Ok ys /\ column wkey p = Ok ws
  /\ map fst p = map fst (t_ffuncs t) /\ List.length ys = List.length p /\ List.length ws = List.length p /\ List.length (u_mask u) = List.length p
  /\ o_x (u_used u) = select (u_mask u) (map (fun kp => if logx then tpow (aofZ 10) (fst kp) else fst kp) p)
  /\ o_y (u_used u) = select (u_mask u) ys /\ o_w (u_used u) = Some (select (u_mask u) ws)
  /\ (forall i kp y w, nth_error p i = Some kp -> nth_error ys i = Some y -> nth_error ws i = Some w ->
        (nth_error (u_mask u) i = Some true <-> admissible l (if logx then tpow (aofZ 10) (fst kp) else fst kp) y (Some w)))
  /\ (forall i v, nth_error ys i = Some v <-> parameter t ykey i v) /\ (forall i v, nth_error ws i = Some v <-> parameter t wkey i v).
Proof.
  unfold trend_func_obs. intros H. apply bind_ok in H. destruct H as (o & H & HU).
  unfold trend_obs in H. apply bind_ok in H. destruct H as (p & HP & H).
  assert (NE : p <> []) by (destruct p; [discriminate|congruence]).
  assert (HC : forall k, column k p = mapM (fun kp => dict_get k (snd kp)) p) by (intros k; destruct p; [contradiction|reflexivity]).
  destruct p as [|p0 pr] eqn:PE; [contradiction|]. rewrite <- PE in *. clear PE p0 pr.
  apply bind_ok in H. destruct H as (y & HY & H). apply bind_ok in H. destruct H as (w & HW & H). apply ok_eq in H. subst o.
  assert (HS : set_fit_obs (mkObs (map (fun kp : XR * list (string * XR) => if logx then tpow (aofZ 10) (fst kp) else fst kp) p) y (Some w)) l = Ok u).
  { unfold init_obs in HU. cbn [o_w] in HU. exact HU. }
  clear HU. pose proof (C47_used_are_the_admissible_observations _ _ _ HS) as (_ & LM & M & EX & EY & EW & _). cbn [o_x o_y o_w option_map nth_w] in *.
  exists p, y, w. rewrite !HC. split; [exact HP|]. split; [exact NE|]. split; [exact HY|]. split; [exact HW|].
  unfold popt_1d in HP. apply mapM_ok in HP. pose proof HY as HY'. pose proof HW as HW'. apply mapM_ok in HY'. apply mapM_ok in HW'.
  assert (LP := Forall2_len _ _ _ HP). assert (LY := Forall2_len _ _ _ HY'). assert (LW := Forall2_len _ _ _ HW').
  assert (PAR : forall k c, Forall2 (fun kp v => dict_get k (snd kp) = Ok v) p c -> forall i v, nth_error c i = Some v <-> parameter t k i v).
  { intros k c HF i v. assert (LC := Forall2_len _ _ _ HF). split.
    - intros E. destruct (nth_some c p i v (eq_sym LC) E) as [kp Ep]. destruct (nth_some p (t_ffuncs t) i kp (eq_sym LP) Ep) as [kf Ef].
      destruct (forall2_nth _ _ _ HP i kf Ef) as (kp' & Ep' & R1). assert (kp' = kp) by congruence. subst kp'.
      destruct (forall2_nth _ _ _ HF i kp Ep) as (v' & Ev' & R2). assert (v' = v) by congruence. subst v'.
      destruct (ff_popt (snd kf)) as [q|] eqn:Q; [|discriminate]. apply ok_eq in R1. subst kp. cbn in R2.
      exists (snd kf), q. rewrite nth_error_map, Ef. auto.
    - intros (f & q & Ef & Eq & Ed). rewrite nth_error_map in Ef. destruct (nth_error (t_ffuncs t) i) as [kf|] eqn:E; [|discriminate].
      assert (f = snd kf) by (cbn in Ef; congruence). subst f. destruct (forall2_nth _ _ _ HP i kf E) as (kp & Ep & R1). rewrite Eq in R1. apply ok_eq in R1. subst kp.
      destruct (forall2_nth _ _ _ HF i _ Ep) as (v' & Ev' & R2). cbn in R2. rewrite Ev'. congruence. }
  split.
  { clear - HP. induction HP as [|a b l l' H _ IH]; [reflexivity|]. cbn. rewrite IH. f_equal.
    destruct (ff_popt (snd a)); [apply ok_eq in H; subst; reflexivity|discriminate]. }
  rewrite map_length in LM.
  split; [lia|]. split; [lia|]. split; [lia|]. split; [exact EX|]. split; [exact EY|]. split; [exact EW|]. split; [|split; [apply PAR, HY'|apply PAR, HW']].
  intros i kp yi wi Ep Ey Ew.
  destruct (M i (if logx then tpow (aofZ 10) (fst kp) else fst kp) yi) as (b & Eb & Hb); [rewrite nth_error_map, Ep; reflexivity|exact Ey|].
  rewrite Eb, Ew in *. rewrite <- Hb. split; congruence.
Qed.
Lemma centres_at t cs (p : list (XR * list (string * XR))) : centres t cs -> map fst p = map fst (t_ffuncs t) ->
  forall i kp, nth_error p i = Some kp -> exists c, nth_error cs i = Some c /\ fst kp = Fin c.
Proof.
  unfold centres. intros H E i kp Hi. rewrite <- E in H.
  assert (N : nth_error (map fst p) i = Some (fst kp)) by (rewrite nth_error_map, Hi; reflexivity).
  rewrite H, nth_error_map in N. destruct (nth_error cs i) as [c|]; [|discriminate]. exists c. split; [reflexivity|]. cbn in N. congruence.
Qed.
Lemma abscissa_fin (logx : bool) c : (if logx then tpow (aofZ 10) (Fin c) else Fin c) = Fin (abscissa logx c).
Proof. destruct logx; [|reflexivity]. rewrite fin_ofZ. apply fin_pow. cbn. lra. Qed.
Lemma ten_above x : x < Rpower 10 x.
Proof.
  unfold Rpower. destruct (Rle_dec x 0) as [H|H]; [pose proof (exp_pos (x * ln 10)); lra|].
  assert (L : 1 < ln 10).
  { apply exp_lt_inv. rewrite exp_ln by lra. pose proof exp_le_3. lra. }
  pose proof (exp_ineq1 (x * ln 10)) as E.
  assert (0 < x * ln 10) by (apply Rmult_lt_0_compat; lra). assert (x * 1 < x * ln 10) by (apply Rmult_lt_compat_l; lra).
  assert (1 + x * ln 10 < exp (x * ln 10)) by (apply E; lra). lra.
Qed.

(* ---------------------------------------------------------------- C207 *)
(** With only_plot_data_in_trend_fit=True on a linear axis, exactly the fits that the trend was fitted to are drawn, in their
    order. (Not proved, because false: the same on a logarithmic axis, below.) *)
Theorem C207_drawn_are_used_partial t cs ykey wkey l u : centres t cs -> NoDup cs -> trend_func_obs false ykey wkey l t = Ok u ->
  exists ws, o_w (u_used u) = Some ws
  /\ plot_all_popt_1d true false true true ykey wkey None (Some (u_used u)) t
     = Ok (Band (o_x (u_used u)) (o_y (u_used u)) (map2 asub (o_y (u_used u)) ws) (map2 aadd (o_y (u_used u)) ws))
  /\ plot_all_popt_1d true false true false ykey wkey None (Some (u_used u)) t = Ok (Bars (o_x (u_used u)) (o_y (u_used u)) (Some ws)).
Proof.
  intros HC ND H. destruct (made _ _ _ _ _ _ H) as (p & ys & ws & HP & NE & CY & CW & EK & LY & LW & LM & EX & EY & EW & ADM & _).
  cbn [o_x o_y] in *. set (m := u_mask u) in *.
  assert (EX' : o_x (u_used u) = select m (map fst p)) by exact EX. clear EX.
  assert (FIN : forall i, nth_error m i = Some true -> exists kp y w c b v, nth_error p i = Some kp /\ nth_error ys i = Some y /\ nth_error ws i = Some w
      /\ nth_error cs i = Some c /\ fst kp = Fin c /\ y = Fin b /\ w = Fin v).
  { intros i Hi. destruct (nth_some m p i true LM Hi) as [kp Ep]. destruct (nth_some p ys i kp (eq_sym LY) Ep) as [y Ey].
    destruct (nth_some p ws i kp (eq_sym LW) Ep) as [w Ew]. destruct (centres_at t cs p HC EK i kp Ep) as (c & Ec & Ek).
    destruct (proj1 (ADM i kp y w Ep Ey Ew) Hi) as (a & b & A1 & A2 & _ & _ & _ & _ & _ & _ & v & c' & A3 & _).
    exists kp, y, w, c, b, v. auto 10. }
  assert (MASK : rows_in_trend (Some (u_used u)) ykey wkey p = Ok m).
  { unfold rows_in_trend. rewrite CY, CW. cbn [bind]. rewrite EX', EY, EW. f_equal.
    apply nth_ext_error.
    - rewrite !and_mask_len, !map_length; lia.
    - intros i b1 b2 H1 H2. destruct (nth_some m p i b2 LM H2) as [kp Ep]. destruct (nth_some p ys i kp (eq_sym LY) Ep) as [y Ey].
      destruct (nth_some p ws i kp (eq_sym LW) Ep) as [w Ew].
      erewrite and_mask_nth in H1; [| erewrite and_mask_nth; [reflexivity|rewrite nth_error_map, Ep; reflexivity|rewrite nth_error_map, Ey; reflexivity]
        | rewrite nth_error_map, Ew; reflexivity].
      assert (E1 : b1 = isin (fst kp) (select m (map fst p)) && isin y (select m ys) && isin w (select m ws)) by congruence. subst b1. clear H1.
      apply eq_true_iff_eq. split.
      + intros X. apply andb_true_iff in X. destruct X as [X _]. apply andb_true_iff in X. destruct X as [X _].
        destruct (centres_at t cs p HC EK i kp Ep) as (c & Ec & Ek). rewrite Ek, isin_fin, in_select in X. destruct X as (j & J1 & J2).
        destruct (FIN j J1) as (kp' & _ & _ & c' & _ & _ & Ep' & _ & _ & Ec' & Ek' & _).
        rewrite nth_error_map, Ep' in J2. cbn in J2. rewrite Ek' in J2. assert (c' = c) by congruence. subst c'.
        assert (j = i). { apply (NoDup_nth_error cs); [exact ND| |congruence]. apply nth_error_Some. congruence. }
        subst j. congruence.
      + intros ->. destruct (FIN i H2) as (kp' & y' & w' & c & b & v & Ep' & Ey' & Ew' & _ & Ek & Eb & Ev).
        assert (kp' = kp) by congruence. subst kp'. rewrite Ek. replace y with (Fin b) by congruence. replace w with (Fin v) by congruence.
        rewrite !(proj2 (isin_fin _ _)); [reflexivity| | |].
        * apply in_select. exists i. split; [exact H2|congruence].
        * apply in_select. exists i. split; [exact H2|congruence].
        * apply in_select. exists i. split; [exact H2|]. rewrite nth_error_map, Ep. cbn. congruence. }
  exists (select m ws). split; [exact EW|].
  unfold plot_all_popt_1d. rewrite HP. cbn [bind negb]. rewrite MASK. cbn [bind]. rewrite CY. cbn [rmap bind].
  rewrite CW. cbn [rmap bind]. rewrite EX', EY. cbn [o_x o_y].
  assert (EM : map (fun kp : XR * list (string * XR) => fst kp) (select m p) = select m (map fst p)) by (rewrite select_map; reflexivity).
  rewrite EM. split; reflexivity.
Qed.
(** The same on a logarithmic axis: a bin's centre (a logarithm) is looked for among the trend's abscissae (not logarithms). So a fit
    is drawn only if its centre happens to be ten to the power of the centre of a used one: *)
Lemma log_rows t cs ykey wkey l u p m : centres t cs -> trend_func_obs true ykey wkey l t = Ok u -> popt_1d t = Ok p ->
  rows_in_trend (Some (u_used u)) ykey wkey p = Ok m ->
  forall i, nth_error m i = Some true -> exists j ci cj, nth_error cs i = Some ci /\ nth_error cs j = Some cj /\ in_trend u j /\ ci = Rpower 10 cj.
Proof.
  intros HC H HP' HM i Hi. destruct (made _ _ _ _ _ _ H) as (p' & ys & ws & HP & NE & CY & CW & EK & LY & LW & LM & EX & EY & EW & ADM & _).
  assert (p' = p) by congruence. subst p'. clear HP'.
  unfold rows_in_trend in HM. rewrite CY, CW in HM. cbn [bind] in HM. apply ok_eq in HM. subst m.
  assert (Hlt : (i < List.length p)%nat).
  { assert (X : (i < List.length (and_mask (and_mask (map (fun kp : XR * list (string * XR) => isin (fst kp) (o_x (u_used u))) p) (map (fun v : XR => isin v (o_y (u_used u))) ys))
        (map (fun v : XR => isin v match o_w (u_used u) with Some l => l | None => [] end) ws)))%nat) by (apply nth_error_Some; congruence).
    rewrite !and_mask_len, !map_length in X; lia. }
  destruct (nth_error p i) as [kp|] eqn:Ep; [|apply nth_error_None in Ep; lia].
  destruct (nth_some p ys i kp (eq_sym LY) Ep) as [y Ey]. destruct (nth_some p ws i kp (eq_sym LW) Ep) as [w Ew].
  erewrite and_mask_nth in Hi; [| erewrite and_mask_nth; [reflexivity|rewrite nth_error_map, Ep; reflexivity|rewrite nth_error_map, Ey; reflexivity]
    | rewrite nth_error_map, Ew; reflexivity].
  assert (X : isin (fst kp) (o_x (u_used u)) = true).
  { destruct (isin (fst kp) (o_x (u_used u))); [reflexivity|cbn in Hi; congruence]. }
  destruct (centres_at t cs p HC EK i kp Ep) as (c & Ec & Ek). rewrite Ek, isin_fin, EX in X. apply in_select in X. destruct X as (j & J1 & J2).
  rewrite nth_error_map in J2. destruct (nth_error p j) as [kj|] eqn:Ej; [|discriminate]. cbn [option_map] in J2.
  destruct (centres_at t cs p HC EK j kj Ej) as (cj & Ecj & Ekj). rewrite Ekj, (abscissa_fin true) in J2. cbn [abscissa] in J2.
  exists j, c, cj. split; [exact Ec|]. split; [exact Ecj|]. split; [exact J1|]. assert (Q : Fin c = Fin (Rpower 10 cj)) by congruence. injection Q as ->. reflexivity.
Qed.
Lemma select_none {A} m (l : list A) : (forall i, nth_error m i <> Some true) -> select m l = [].
Proof.
  revert l. induction m as [|b m IH]; intros l H; [reflexivity|]. destruct l as [|a l]; [reflexivity|]. cbn.
  destruct b; [exfalso; exact (H 0%nat eq_refl)|]. apply IH. intros i. exact (H (S i)).
Qed.
(** ... and on a logarithmic axis whose bins lie in [a, b] with b < 10^a (for example from 1 to 3, i.e. from 10 to 1000) nothing
    is drawn at all, whatever was used. *)
Theorem C207_log_axis_refuted t cs ykey wkey l u a b : centres t cs -> trend_func_obs true ykey wkey l t = Ok u ->
  (forall c, In c cs -> a <= c <= b) -> b < Rpower 10 a ->
  plot_all_popt_1d true true true true ykey wkey None (Some (u_used u)) t = Ok (Band [] [] [] []).
Proof.
  intros HC H HR Hab. destruct (made _ _ _ _ _ _ H) as (p & ys & ws & HP & NE & CY & CW & _).
  unfold plot_all_popt_1d. rewrite HP. cbn [bind negb].
  destruct (rows_in_trend (Some (u_used u)) ykey wkey p) as [m|e] eqn:HM; [|unfold rows_in_trend in HM; rewrite CY, CW in HM; discriminate].
  assert (NO : forall i, nth_error m i <> Some true).
  { intros i Hi. destruct (log_rows _ _ _ _ _ _ _ _ HC H HP HM i Hi) as (j & ci & cj & E1 & E2 & _ & E3).
    assert (B1 := HR ci (nth_error_In _ _ E1)). assert (B2 := HR cj (nth_error_In _ _ E2)).
    assert (Rpower 10 a <= Rpower 10 cj). { apply Rle_Rpower; [lra|lra]. } lra. }
  cbn [bind]. rewrite CY, CW. cbn [rmap bind]. rewrite !(select_none m) by exact NO. reflexivity.
Qed.
(** The fit of the leftmost bin is never drawn on a logarithmic axis, wherever the bins are. *)
Theorem C207_leftmost_on_log_axis_refuted t c cs ykey wkey l u : centres t (c :: cs) -> (forall d, In d cs -> c < d) ->
  trend_func_obs true ykey wkey l t = Ok u ->
  forall x y lo hi, plot_all_popt_1d true true true true ykey wkey None (Some (u_used u)) t = Ok (Band x y lo hi) ->
  ~ In (Fin (Rpower 10 c)) x.
Proof.
  intros HC HL H x y lo hi HPL HI. destruct (made _ _ _ _ _ _ H) as (p & ys & ws & HP & NE & CY & CW & EK & _).
  unfold plot_all_popt_1d in HPL. rewrite HP in HPL. cbn [bind negb] in HPL.
  destruct (rows_in_trend (Some (u_used u)) ykey wkey p) as [m|e] eqn:HM; [|discriminate]. cbn [bind] in HPL. rewrite CY, CW in HPL. cbn [rmap bind] in HPL.
  apply ok_eq in HPL. assert (EX : x = map (fun kp => tpow (aofZ 10) (fst kp)) (select m p)) by congruence. subst x. clear HPL.
  apply in_map_iff in HI. destruct HI as (kp & Ek & Hkp). apply in_select in Hkp. destruct Hkp as (i & Hi & Ep).
  destruct (log_rows _ _ _ _ _ _ _ _ HC H HP HM i Hi) as (j & ci & cj & E1 & E2 & _ & E3).
  destruct (centres_at t (c :: cs) p HC EK i kp Ep) as (ci' & Ec & Ekp). assert (ci' = ci) by congruence. subst ci'.
  rewrite Ekp, (abscissa_fin true) in Ek. cbn [abscissa] in Ek.
  assert (P : Rpower 10 ci = Rpower 10 c) by congruence.
  assert (Q : ci = c).
  { destruct (Rtotal_order ci c) as [O|[O|O]]; [|exact O|]; exfalso.
    - pose proof (Rpower_lt 10 ci c ltac:(lra) O). lra.
    - pose proof (Rpower_lt 10 c ci ltac:(lra) O). lra. }
  subst ci. pose proof (ten_above cj) as T. destruct (nth_error_In _ _ E2) as [B|B]; [lra|]. pose proof (HL cj B). lra.
Qed.

(* ---------------------------------------------------------------- C208 *)
Lemma mapM_total {A B} (f : A -> result B) l : (forall x, In x l -> exists y, f x = Ok y) -> exists r, mapM f l = Ok r.
Proof.
  induction l as [|x l IH]; intros H; [exists []; reflexivity|]. destruct (H x (or_introl eq_refl)) as [y Ey].
  destruct IH as [r Er]; [intros z Hz; apply H; right; exact Hz|]. exists (y :: r). cbn. rewrite Ey, Er. reflexivity.
Qed.
(** Every 1d fit that succeeded is drawn, in their order, at its bin's centre (ten to its power on a logarithmic axis), with the parameter
    ykey as ordinate and a band of the parameter k to either side. *)
Theorem C208_all_fits_drawn t cs logx ykey k k' over p : centres t cs -> cs <> [] -> popt_1d t = Ok p ->
  over = None /\ k' = k \/ over = Some (Some k) ->
  (forall i, (i < List.length cs)%nat -> (exists v, parameter t ykey i v) /\ (exists v, parameter t k i v)) ->
  exists ys ws, (forall i v, nth_error ys i = Some v <-> parameter t ykey i v) /\ (forall i v, nth_error ws i = Some v <-> parameter t k i v)
  /\ List.length ys = List.length cs /\ List.length ws = List.length cs
  /\ plot_all_popt_1d true logx false true ykey k' over None t
     = Ok (Band (map (fun c => Fin (abscissa logx c)) cs) ys (map2 asub ys ws) (map2 aadd ys ws))
  /\ plot_all_popt_1d true logx false false ykey k' over None t = Ok (Bars (map (fun c => Fin (abscissa logx c)) cs) ys (Some ws))
  /\ plot_all_popt_1d true logx false false ykey k' (Some None) None t = Ok (Bars (map (fun c => Fin (abscissa logx c)) cs) ys None).
Proof.
  intros HC NC HP HO HV. pose proof HP as HPm. unfold popt_1d in HPm. apply mapM_ok in HPm. assert (LP := Forall2_len _ _ _ HPm).
  assert (LC : List.length p = List.length cs).
  { unfold centres in HC. apply (f_equal (@List.length _)) in HC. rewrite !map_length in HC. lia. }
  assert (COL : forall q, (forall i, (i < List.length cs)%nat -> exists v, parameter t q i v) ->
     exists c, column q p = Ok c /\ List.length c = List.length p /\ forall i v, nth_error c i = Some v <-> parameter t q i v).
  { intros q Hq. assert (G : forall i kp v, nth_error p i = Some kp -> parameter t q i v -> dict_get q (snd kp) = Ok v).
    { intros i kp v Ep Hv.
      destruct Hv as (f & d & Ef & Eq & Ed). rewrite nth_error_map in Ef. destruct (nth_error (t_ffuncs t) i) as [kf|] eqn:E; [|discriminate].
      cbn in Ef. assert (snd kf = f) by congruence. subst f. destruct (forall2_nth _ _ _ HPm i kf E) as (kp' & Ep' & R1). rewrite Eq in R1. apply ok_eq in R1.
      assert (kp' = kp) by congruence. subst. exact Ed. }
    destruct (mapM_total (fun kp : XR * list (string * XR) => dict_get q (snd kp)) p) as [c Hc].
    { intros kp Hin. apply In_nth_error in Hin. destruct Hin as [i Ep]. destruct (Hq i) as [v Hv]; [rewrite <- LC; apply nth_error_Some; congruence|].
      exists v. exact (G i kp v Ep Hv). }
    exists c. split; [destruct p; [exfalso; apply NC; destruct cs; [reflexivity|discriminate]|exact Hc]|].
    apply mapM_ok in Hc. assert (LL := Forall2_len _ _ _ Hc). split; [lia|]. intros i v. split.
    - intros E. destruct (nth_some c p i v (eq_sym LL) E) as [kp Ep]. destruct (Hq i) as [v' Hv]; [rewrite <- LC; apply nth_error_Some; congruence|].
      destruct (forall2_nth _ _ _ Hc i kp Ep) as (v'' & Ev & R1). pose proof (G i kp v' Ep Hv) as Q. assert (v'' = v) by congruence. assert (v'' = v') by congruence. congruence.
    - intros Hv. pose proof Hv as Hv'. destruct Hv' as (f & d & Ef & Eq & Ed).
      assert (Hi : (i < List.length p)%nat). { rewrite <- LP, <- (map_length snd). apply nth_error_Some. congruence. }
      destruct (nth_error p i) as [kp|] eqn:Ep; [|apply nth_error_None in Ep; lia].
      destruct (forall2_nth _ _ _ Hc i kp Ep) as (v'' & Ev & R1). rewrite (G i kp v Ep Hv) in R1. congruence. }
  destruct (COL ykey) as (ys & CY & LY & PY); [intros i Hi; apply HV, Hi|]. destruct (COL k) as (ws & CW & LW & PW); [intros i Hi; apply HV, Hi|].
  exists ys, ws. split; [exact PY|]. split; [exact PW|]. split; [lia|]. split; [lia|].
  assert (SA : forall (A : Type) (l : list A), List.length l = List.length p -> select (map (fun _ : XR * list (string * XR) => true) p) l = l).
  { intros A. clear. induction p as [|kp p IH]; intros [|a l] L; try discriminate; [reflexivity|]. cbn. f_equal. apply IH. cbn in L. lia. }
  assert (XS : map (fun kp : XR * list (string * XR) => if logx then tpow (aofZ 10) (fst kp) else fst kp) p = map (fun c => Fin (abscissa logx c)) cs).
  { unfold centres in HC.
    assert (EK : map fst p = map Fin cs).
    { rewrite <- HC. clear - HPm. induction HPm as [|a b l l' H _ IH]; [reflexivity|]. cbn. rewrite IH. f_equal.
      destruct (ff_popt (snd a)); [apply ok_eq in H; subst; reflexivity|discriminate]. }
    clear - EK. revert cs EK. induction p as [|kp p IH]; intros [|c cs] E; try discriminate; [reflexivity|]. cbn in E. cbn [map].
    assert (E1 : fst kp = Fin c) by congruence. assert (E2 : map fst p = map Fin cs) by congruence. rewrite E1, abscissa_fin, (IH cs E2). reflexivity. }
  assert (WK : match over with Some q => q | None => Some k' end = Some k) by (destruct HO as [[-> ->]| ->]; reflexivity).
  unfold plot_all_popt_1d. rewrite HP. cbn [bind negb]. rewrite WK, CY, CW. cbn [rmap bind].
  rewrite (SA _ p eq_refl), (SA _ ys LY), (SA _ ws LW), XS. auto.
Qed.
(** A band without a width is refused, and so are columns that are not intervals (make_trend_func takes both kinds). *)
Theorem C208_rejections t logx only ykey wkey used p : popt_1d t = Ok p ->
  (forall band over, plot_all_popt_1d (T := XR) false logx only band ykey wkey over used t = Err TypeError)
  /\ plot_all_popt_1d true logx false true ykey wkey (Some None) used t = Err NotImplementedError
  /\ (forall band over, plot_all_popt_1d true logx true band ykey wkey over None t = Err AttributeError).
Proof. intros HP. unfold plot_all_popt_1d. rewrite HP. cbn. auto. Qed.

(* ---------------------------------------------------------------- C209 *)
Lemma used_real logx ykey wkey l t u : trend_func_obs (T := XR) logx ykey wkey l t = Ok u ->
  exists yr wr, o_y (u_used u) = map Fin yr /\ o_w (u_used u) = Some (map Fin wr) /\ List.length yr = List.length wr.
Proof.
  intros H. destruct (made _ _ _ _ _ _ H) as (p & ys & ws & HP & NE & CY & CW & EK & LY & LW & LM & EX & EY & EW & ADM & _).
  assert (FY : forall v, In v (select (u_mask u) ys) -> exists a, v = Fin a).
  { intros v Hv. apply in_select in Hv. destruct Hv as (i & Hi & Ev). destruct (nth_some ys p i v LY Ev) as [kp Ep]. destruct (nth_some p ws i kp (eq_sym LW) Ep) as [w Ew].
    destruct (proj1 (ADM i kp v w Ep Ev Ew) Hi) as (a & b & _ & Eb & _). eauto. }
  assert (FW : forall v, In v (select (u_mask u) ws) -> exists a, v = Fin a).
  { intros v Hv. apply in_select in Hv. destruct Hv as (i & Hi & Ev). destruct (nth_some ws p i v LW Ev) as [kp Ep]. destruct (nth_some p ys i kp (eq_sym LY) Ep) as [y Ey].
    destruct (proj1 (ADM i kp y v Ep Ey Ev) Hi) as (a & b & _ & _ & _ & _ & _ & _ & _ & _ & w & c & Ew & _). eauto. }
  destruct (all_fin _ FY) as [yr Eyr]. destruct (all_fin _ FW) as [wr Ewr]. exists yr, wr. rewrite EY, EW, <- Ewr, <- Eyr. split; [reflexivity|]. split; [reflexivity|].
  rewrite <- (map_length Fin yr), <- (map_length Fin wr), <- Eyr, <- Ewr, !select_length by lia. reflexivity.
Qed.
(** The legends, one per fit: fit i says "In Fit" exactly if its two parameters lie between the extremes of those of the used fits. *)
Lemma legends logx ykey wkey l t u : trend_func_obs (T := XR) logx ykey wkey l t = Ok u -> (exists i, in_trend u i) ->
  exists r, in_fit ykey wkey (Some (u_used u)) t = Ok r /\ map fst r = map fst (t_ffuncs t)
  /\ forall i b y w, nth_error (map snd r) i = Some b -> parameter t ykey i y -> parameter t wkey i w ->
     (b = true <-> exists yv wv, y = Fin yv /\ w = Fin wv
        /\ exists j1 j2 j3 j4 y1 y2 w1 w2, in_trend u j1 /\ in_trend u j2 /\ in_trend u j3 /\ in_trend u j4
           /\ parameter t ykey j1 (Fin y1) /\ parameter t ykey j2 (Fin y2) /\ parameter t wkey j3 (Fin w1) /\ parameter t wkey j4 (Fin w2)
           /\ y1 <= yv <= y2 /\ w1 <= wv <= w2).
Proof.
  intros H [i0 Hi0]. destruct (made _ _ _ _ _ _ H) as (p & ys & ws & HP & NE & CY & CW & EK & LY & LW & LM & EX & EY & EW & ADM & PY & PW).
  destruct (used_real _ _ _ _ _ _ H) as (yr & wr & UY & UW & UL).
  assert (SY : map Fin yr = select (u_mask u) ys) by congruence. assert (SW : map Fin wr = select (u_mask u) ws) by congruence.
  assert (NY : yr <> []).
  { intros ->. destruct (nth_some (u_mask u) ys i0 true) as [y Ey]; [lia|exact Hi0|]. assert (X : In y (select (u_mask u) ys)) by (apply in_select; eauto). rewrite <- SY in X. exact X. }
  assert (NW : wr <> []) by (intros ->; destruct yr; [contradiction|discriminate]).
  assert (MEM : forall (r : list R) (c : list XR) k, map Fin r = select (u_mask u) c -> (forall i v, nth_error c i = Some v <-> parameter t k i v) ->
     forall a, In a r <-> exists j, in_trend u j /\ parameter t k j (Fin a)).
  { intros r c k E HPc a. transitivity (In (Fin a) (map Fin r)); [rewrite in_map_iff; split; [eauto|intros (x & Ex & Hx); injection Ex as ->; exact Hx]|].
    rewrite E, in_select. split; intros (j & A1 & A2); exists j; (split; [exact A1|]); apply HPc; exact A2. }
  unfold in_fit. rewrite HP. cbn [bind]. rewrite CY, CW. cbn [bind]. rewrite UY, UW.
  destruct (arr_min_fin yr NY) as (y0 & -> & Y0 & Y0'). destruct (arr_max_fin yr NY) as (y1 & -> & Y1 & Y1').
  destruct (arr_min_fin wr NW) as (w0 & -> & W0 & W0'). destruct (arr_max_fin wr NW) as (w1 & -> & W1 & W1'). cbn [bind].
  eexists. split; [reflexivity|].
  set (bs := and_mask _ _). assert (LB : List.length bs = List.length p) by (unfold bs; rewrite !and_mask_len, !map_length; lia).
  split. { rewrite <- EK. revert LB. generalize bs. clear. intros bs. generalize (map fst p) (map_length fst p). intros ks <-. revert bs.
    induction ks as [|k ks IH]; intros [|b bs] L; try discriminate; [reflexivity|]. cbn. rewrite IH; [reflexivity|cbn in L; lia]. }
  intros i b y w Eb HY HW. apply PY in HY. apply PW in HW.
  assert (ESB : map snd (combine (map fst p) bs) = bs).
  { clear - LB. revert LB. generalize bs. clear. intros bs. generalize (map fst p) (map_length fst p). intros ks <-. revert bs.
    induction ks as [|k ks IH]; intros [|b bs] L; try discriminate; [reflexivity|]. cbn. rewrite IH; [reflexivity|cbn in L; lia]. }
  rewrite ESB in Eb. unfold bs in Eb.
  erewrite and_mask_nth in Eb; [|rewrite nth_error_map, HY; reflexivity|rewrite nth_error_map, HW; reflexivity].
  assert (E : b = (aleb (Fin y0) y && aleb y (Fin y1)) && (aleb (Fin w0) w && aleb w (Fin w1))) by congruence. subst b. clear Eb.
  assert (BET : forall (lo hi : R) (v : XR), aleb (Fin lo) v && aleb v (Fin hi) = true <-> exists a, v = Fin a /\ lo <= a <= hi).
  { intros lo hi v. destruct v as [a| | |]; try (split; [cbn; intros X; try discriminate X; apply andb_true_iff in X; destruct X; discriminate|intros (a & Ea & _); discriminate]).
    rewrite !fin_leb, andb_true_iff, !Rleb_true. split; [intros X; exists a; auto|intros (a' & Ea & X); injection Ea as <-; exact X]. }
  rewrite andb_true_iff, !BET. split.
  - intros [(yv & -> & YB) (wv & -> & WB)]. exists yv, wv. split; [reflexivity|]. split; [reflexivity|].
    destruct (proj1 (MEM yr ys ykey SY PY y0) Y0) as (j1 & J1 & Q1). destruct (proj1 (MEM yr ys ykey SY PY y1) Y1) as (j2 & J2 & Q2).
    destruct (proj1 (MEM wr ws wkey SW PW w0) W0) as (j3 & J3 & Q3). destruct (proj1 (MEM wr ws wkey SW PW w1) W1) as (j4 & J4 & Q4).
    exists j1, j2, j3, j4, y0, y1, w0, w1. auto 12.
  - intros (yv & wv & -> & -> & j1 & j2 & j3 & j4 & a1 & a2 & b1 & b2 & J1 & J2 & J3 & J4 & Q1 & Q2 & Q3 & Q4 & B1 & B2).
    assert (I1 := proj2 (MEM yr ys ykey SY PY a1) (ex_intro _ j1 (conj J1 Q1))). assert (I2 := proj2 (MEM yr ys ykey SY PY a2) (ex_intro _ j2 (conj J2 Q2))).
    assert (I3 := proj2 (MEM wr ws wkey SW PW b1) (ex_intro _ j3 (conj J3 Q3))). assert (I4 := proj2 (MEM wr ws wkey SW PW b2) (ex_intro _ j4 (conj J4 Q4))).
    specialize (Y0' _ I1). specialize (Y1' _ I2). specialize (W0' _ I3). specialize (W1' _ I4). cbv beta in *.
    split; [exists yv|exists wv]; (split; [reflexivity|lra]).
Qed.
Lemma used_parameters logx ykey wkey l t u i : trend_func_obs (T := XR) logx ykey wkey l t = Ok u -> in_trend u i ->
  exists y w, parameter t ykey i (Fin y) /\ parameter t wkey i (Fin w).
Proof.
  intros H Hi. destruct (made _ _ _ _ _ _ H) as (p & ys & ws & HP & NE & CY & CW & EK & LY & LW & LM & EX & EY & EW & ADM & PY & PW).
  destruct (nth_some (u_mask u) p i true LM Hi) as [kp Ep]. destruct (nth_some p ys i kp (eq_sym LY) Ep) as [y Ey]. destruct (nth_some p ws i kp (eq_sym LW) Ep) as [w Ew].
  destruct (proj1 (ADM i kp y w Ep Ey Ew) Hi) as (a & b & _ & Eb & _ & _ & _ & _ & _ & _ & v & c & Ev & _). subst.
  exists b, v. split; [apply PY|apply PW]; assumption.
Qed.
Lemma parameter_fun t k i v v' : parameter t k i v -> parameter t k i v' -> v = v'.
Proof. intros (f & q & A1 & A2 & A3) (f' & q' & B1 & B2 & B3). assert (f = f') by congruence. subst. assert (q = q') by congruence. subst. congruence. Qed.
(** A fit that was used in the trend has a figure whose legend says "In Fit". *)
Theorem C209_used_says_in_fit logx ykey wkey l t u : trend_func_obs (T := XR) logx ykey wkey l t = Ok u -> (exists i, in_trend u i) ->
  exists r, in_fit ykey wkey (Some (u_used u)) t = Ok r /\ map fst r = map fst (t_ffuncs t)
  /\ forall i b, in_trend u i -> nth_error (map snd r) i = Some b -> b = true.
Proof.
  intros H HU. destruct (legends _ _ _ _ _ _ H HU) as (r & E & K & L). exists r. split; [exact E|]. split; [exact K|].
  intros i b Hi Eb. destruct (used_parameters _ _ _ _ _ _ i H Hi) as (y & w & P1 & P2).
  apply (L i b _ _ Eb P1 P2). exists y, w. split; [reflexivity|]. split; [reflexivity|]. exists i, i, i, i, y, y, w, w. repeat split; auto; lra.
Qed.
(** If the trend was limited by the two parameters themselves only (their smallest and largest values), also the converse. *)
Theorem C209_in_fit_was_used_partial logx ykey wkey ymin ymax wmin wmax t cs u : centres t cs ->
  trend_func_obs (T := XR) logx ykey wkey (mkLimits None None None ymin ymax None wmin wmax false) t = Ok u -> (exists i, in_trend u i) ->
  exists r, in_fit ykey wkey (Some (u_used u)) t = Ok r
  /\ forall i b, nth_error (map snd r) i = Some b -> (b = true <-> in_trend u i).
Proof.
  intros HC H HU. destruct (legends _ _ _ _ _ _ H HU) as (r & E & K & L). exists r. split; [exact E|]. intros i b Eb.
  destruct (made _ _ _ _ _ _ H) as (p & ys & ws & HP & NE & CY & CW & EK & LY & LW & LM & EX & EY & EW & ADM & PY & PW).
  assert (LR : List.length (map snd r) = List.length p).
  { rewrite map_length, <- (map_length fst r), K, <- EK, map_length. reflexivity. }
  destruct (nth_some (map snd r) p i b LR Eb) as [kp Ep]. destruct (nth_some p ys i kp (eq_sym LY) Ep) as [y Ey]. destruct (nth_some p ws i kp (eq_sym LW) Ep) as [w Ew].
  pose proof (proj1 (PY i y) Ey) as QY. pose proof (proj1 (PW i w) Ew) as QW. rewrite (L i b y w Eb QY QW). unfold in_trend at 1. rewrite (ADM i kp y w Ep Ey Ew).
  destruct (centres_at t cs p HC EK i kp Ep) as (c & Ec & Ekp). rewrite Ekp, abscissa_fin.
  assert (LIM : forall j yj wj, in_trend u j -> parameter t ykey j (Fin yj) -> parameter t wkey j (Fin wj) ->
     at_least ymin yj /\ at_most ymax yj /\ at_least wmin wj /\ at_most wmax wj).
  { intros j yj wj Hj Q1 Q2. destruct (nth_some (u_mask u) p j true LM Hj) as [kj Ej]. apply PY in Q1. apply PW in Q2.
    destruct (proj1 (ADM j kj _ _ Ej Q1 Q2) Hj) as (a & b' & _ & Eb' & _ & _ & _ & A1 & A2 & _ & v & c' & Ev & A5 & A3 & A4). cbn in A5, A1, A2, A3, A4. subst c'.
    assert (b' = yj) by congruence. assert (v = wj) by congruence. subst. auto. }
  assert (UP : forall j q, in_trend u j -> q = ykey \/ q = wkey -> forall a, parameter t q j (Fin a) -> 
     exists yj wj, parameter t ykey j (Fin yj) /\ parameter t wkey j (Fin wj) /\ (q = ykey -> yj = a) /\ (q = wkey -> wj = a)).
  { intros j q Hj _ a Qa. destruct (used_parameters _ _ _ _ _ _ j H Hj) as (yj & wj & Q1 & Q2). exists yj, wj. split; [exact Q1|]. split; [exact Q2|].
    split; intros ->; [assert (X := parameter_fun _ _ _ _ _ Q1 Qa)|assert (X := parameter_fun _ _ _ _ _ Q2 Qa)]; congruence. }
  assert (AL : forall o a b', at_least o a -> a <= b' -> at_least o b') by (intros [[x| | |]|] a b'; cbn; intros; try lra; auto).
  assert (AM : forall o a b', at_most o a -> b' <= a -> at_most o b') by (intros [[x| | |]|] a b'; cbn; intros; try lra; auto).
  split.
  - intros (yv & wv & -> & -> & j1 & j2 & j3 & j4 & a1 & a2 & b1 & b2 & J1 & J2 & J3 & J4 & Q1 & Q2 & Q3 & Q4 & B1 & B2).
    exists (abscissa logx c), yv. split; [reflexivity|]. split; [reflexivity|]. cbn [l_xmin l_xmax l_xout l_ymin l_ymax l_yout l_wmin l_wmax l_logy].
    split; [exact Logic.I|]. split; [exact Logic.I|]. split; [exact Logic.I|].
    destruct (UP j1 ykey J1 (or_introl eq_refl) a1 Q1) as (y1' & w1' & R1 & S1 & T1 & _). rewrite (T1 eq_refl) in *.
    destruct (UP j2 ykey J2 (or_introl eq_refl) a2 Q2) as (y2' & w2' & R2 & S2 & T2 & _). rewrite (T2 eq_refl) in *.
    destruct (UP j3 wkey J3 (or_intror eq_refl) b1 Q3) as (y3' & w3' & R3 & S3 & _ & T3). rewrite (T3 eq_refl) in *.
    destruct (UP j4 wkey J4 (or_intror eq_refl) b2 Q4) as (y4' & w4' & R4 & S4 & _ & T4). rewrite (T4 eq_refl) in *.
    pose proof (LIM _ _ _ J1 R1 S1) as (X1 & _). pose proof (LIM _ _ _ J2 R2 S2) as (_ & X2 & _). pose proof (LIM _ _ _ J3 R3 S3) as (_ & _ & X3 & _). pose proof (LIM _ _ _ J4 R4 S4) as (_ & _ & _ & X4).
    split; [apply (AL _ a1); [exact X1|lra]|]. split; [apply (AM _ a2); [exact X2|lra]|]. split; [exact Logic.I|].
    exists wv, wv. split; [reflexivity|]. split; [reflexivity|]. split; [apply (AL _ b1); [exact X3|lra]|apply (AM _ b2); [exact X4|lra]].
  - intros (a & b' & _ & Eb' & _ & _ & _ & A1 & A2 & _ & v & c' & Ev & A5 & A3 & A4).
    assert (Hi : in_trend u i).
    { unfold in_trend. apply (ADM i kp y w Ep Ey Ew). rewrite Ekp, abscissa_fin. exists (abscissa logx c), b'. split; [reflexivity|]. split; [exact Eb'|]. do 3 (split; [exact Logic.I|]). split; [exact A1|]. split; [exact A2|]. split; [exact Logic.I|]. exists v, c'. auto. }
    subst y w. exists b', v. split; [reflexivity|]. split; [reflexivity|]. exists i, i, i, i, b', b', v, v. repeat split; auto; lra.
Qed.
(** With other limits it is not so: a fit left out of the trend (by its abscissa, say) says "In Fit" as soon as its parameters lie
    between those of used fits. *)
Theorem C209_left_out_says_in_fit_refuted logx ykey wkey l t u i y w j1 j2 j3 j4 y1 y2 w1 w2 : trend_func_obs (T := XR) logx ykey wkey l t = Ok u ->
  ~ in_trend u i -> parameter t ykey i (Fin y) -> parameter t wkey i (Fin w) ->
  in_trend u j1 -> in_trend u j2 -> in_trend u j3 -> in_trend u j4 ->
  parameter t ykey j1 (Fin y1) -> parameter t ykey j2 (Fin y2) -> parameter t wkey j3 (Fin w1) -> parameter t wkey j4 (Fin w2) ->
  y1 <= y <= y2 -> w1 <= w <= w2 ->
  exists r, in_fit ykey wkey (Some (u_used u)) t = Ok r /\ nth_error (map snd r) i = Some true.
Proof.
  intros H NI P1 P2 J1 J2 J3 J4 Q1 Q2 Q3 Q4 B1 B2. destruct (legends _ _ _ _ _ _ H (ex_intro _ j1 J1)) as (r & E & K & L). exists r. split; [exact E|].
  assert (X : (i < List.length (map snd r))%nat).
  { destruct P1 as (f & _ & Ef & _). rewrite map_length, <- (map_length fst r), K, map_length, <- (map_length snd (t_ffuncs t)). apply nth_error_Some. congruence. }
  destruct (nth_error (map snd r) i) as [b|] eqn:Eb; [|apply nth_error_None in Eb; lia]. f_equal.
  apply (L i b _ _ Eb P1 P2). exists y, w. split; [reflexivity|]. split; [reflexivity|]. exists j1, j2, j3, j4, y1, y2, w1, w2. auto 12.
Qed.

(* ---------------------------------------------------------------- C210 *)
(** No property is given twice, under whichever of its names. *)
Definition once (kw : list (string * string)) : Prop := NoDup (map (fun e => line_alias (fst e)) kw).
(** a property asked for, under one of its names *)
Definition asked (kw : list (string * string)) (k v : string) : Prop := exists a, In (a, v) kw /\ line_alias a = k.
Lemma alias_idem k : line_alias (line_alias k) = line_alias k.
Proof.
  unfold line_alias at 2 3. destruct (find _ _) as [[a f]|] eqn:E.
  - apply find_some in E. destruct E as [E _]. cbn [In] in E.
    repeat (destruct E as [E|E]; [assert (Q : f = snd (a, f)) by reflexivity; rewrite <- E in Q; cbn in Q; subst f; reflexivity|]). contradiction.
  - unfold line_alias. rewrite E. reflexivity.
Qed.
Lemma normalize_ok kw seen : NoDup (map fst seen ++ map (fun e => line_alias (fst e)) kw) ->
  normalize_kwargs kw seen = Ok (seen ++ map (fun e => (line_alias (fst e), snd e)) kw).
Proof.
  revert seen. induction kw as [|[k v] kw IH]; intros seen ND; cbn; [rewrite app_nil_r; reflexivity|].
  cbn in ND. assert (M : mem_str (line_alias k) (map fst seen) = false).
  { destruct (mem_str (line_alias k) (map fst seen)) eqn:E; [|reflexivity]. apply mem_str_In in E. apply NoDup_remove_2 in ND. exfalso. apply ND. apply in_or_app. left. exact E. }
  rewrite M, IH; [rewrite <- app_assoc; reflexivity|]. rewrite map_app, <- app_assoc. exact ND.
Qed.
Lemma normalize_twice kw seen : NoDup (map fst seen) -> ~ NoDup (map fst seen ++ map (fun e => line_alias (fst e)) kw) -> normalize_kwargs kw seen = Err TypeError.
Proof.
  revert seen. induction kw as [|[k v] kw IH]; intros seen NS ND; cbn in *; [rewrite app_nil_r in ND; contradiction|].
  destruct (mem_str (line_alias k) (map fst seen)) eqn:E; [reflexivity|]. apply IH.
  - rewrite map_app. cbn. apply NoDup_rev in NS. rewrite <- (rev_involutive (map fst seen ++ [line_alias k])). apply NoDup_rev. rewrite rev_app_distr. cbn. constructor; [|exact NS].
    rewrite <- in_rev. intros X. apply mem_str_In in X. congruence.
  - rewrite map_app, <- app_assoc. exact ND.
Qed.
Lemma pop_find k d kw : NoDup (map fst kw) ->
  (forall v, In (k, v) kw -> fst (pop k d kw) = v) /\ ((forall v, ~ In (k, v) kw) -> fst (pop k d kw) = d)
  /\ (forall e, In e (snd (pop k d kw)) <-> In e kw /\ fst e <> k) /\ NoDup (map fst (snd (pop k d kw))).
Proof.
  intros ND. unfold pop. cbn [fst snd]. split; [|split; [|split]].
  - intros v Hv. destruct (find _ kw) as [[k' v']|] eqn:E.
    + apply find_some in E. cbn in E. destruct E as [E1 E2]. apply String.eqb_eq in E2. subst k'.
      clear - ND Hv E1. induction kw as [|[a b] kw IH]; [contradiction|]. inversion ND as [|? ? N ND']; subst.
      destruct Hv as [Hv|Hv], E1 as [E1|E1]; [congruence| | |auto]; exfalso; apply N; [replace a with k by congruence|replace a with k by congruence];
        [exact (in_map fst _ _ E1)|exact (in_map fst _ _ Hv)].
    + exfalso. pose proof (find_none _ _ E (k, v) Hv) as Q. cbn in Q. rewrite String.eqb_refl in Q. discriminate.
  - intros Hn. destruct (find _ kw) as [[k' v']|] eqn:E; [|reflexivity]. apply find_some in E. cbn in E. destruct E as [E1 E2]. apply String.eqb_eq in E2. subst k'. exfalso. exact (Hn v' E1).
  - intros e. rewrite filter_In, negb_true_iff, String.eqb_neq. reflexivity.
  - clear - ND. induction kw as [|[a b] kw IH]; [constructor|]. inversion ND as [|? ? N ND']; subst. cbn. destruct (String.eqb a k); cbn; [auto|].
    constructor; [|auto]. intros X. apply N. apply in_map_iff in X. destruct X as (e & <- & He). apply filter_In in He. apply in_map. tauto.
Qed.
Lemma norm_asked kw : once kw -> exists nk, normalize_kwargs kw [] = Ok nk /\ NoDup (map fst nk) /\ forall k v, In (k, v) nk <-> asked kw k v.
Proof.
  intros H. exists (map (fun e => (line_alias (fst e), snd e)) kw). split; [apply normalize_ok; exact H|]. split; [rewrite map_map; exact H|].
  intros k v. rewrite in_map_iff. unfold asked. split.
  - intros ([a b] & E & Hin). cbn in E. exists a. split; [congruence|congruence].
  - intros (a & Hin & E). exists (a, v). cbn. split; [congruence|exact Hin].
Qed.
Lemma asked_not_ls kw v : ~ asked kw "ls" v.
Proof. intros (a & _ & E). pose proof (alias_idem a) as X. rewrite E in X. discriminate X. Qed.
Lemma call_ok own more : (forall k v, In (k, v) more -> ~ In k (map fst own)) -> call_with own more = Ok (own ++ more).
Proof.
  intros H. unfold call_with. destruct (existsb _ more) eqn:E; [|reflexivity]. apply existsb_exists in E. destruct E as ([k v] & Hin & M). cbn in M. apply mem_str_In in M. exfalso. exact (H k v Hin M).
Qed.
(** With a band: the line has every property asked for under any of its names, and its colour and label are "cyan" and "1D Fits" if
    they are not asked for. *)
Theorem C210_line_options kw : once kw ->
  exists st, popt_style true kw = Ok st /\ NoDup (map fst st)
  /\ (forall k v, asked kw k v -> In (k, v) st)
  /\ (forall k v, In (k, v) st -> asked kw k v \/ ((forall v', ~ asked kw k v') /\ (k = "color" /\ v = "cyan" \/ k = "label" /\ v = "1D Fits"))).
Proof.
  intros H. destruct (norm_asked kw H) as (nk & EN & ND & HA). unfold popt_style. rewrite EN. cbn [bind].
  destruct (pop "color" "cyan" nk) as [c k1] eqn:E1. destruct (pop "ls" "--" k1) as [ls k2] eqn:E2. destruct (pop "label" "1D Fits" k2) as [lb k3] eqn:E3.
  destruct (pop_find "color" "cyan" nk ND) as (A1 & A2 & A3 & A4). rewrite E1 in *. cbn [fst snd] in *.
  destruct (pop_find "ls" "--" k1 A4) as (B1 & B2 & B3 & B4). rewrite E2 in *. cbn [fst snd] in *.
  destruct (pop_find "label" "1D Fits" k2 B4) as (C1 & C2 & C3 & C4). rewrite E3 in *. cbn [fst snd] in *.
  assert (LBL : forall v, In ("label", v) k2 <-> asked kw "label" v).
  { intros v. rewrite B3, A3, HA. cbn [fst]. split; [tauto|]. intros X. repeat split; [exact X|discriminate|discriminate]. }
  rewrite call_ok; [|intros k v Hin; cbn; intros [X|[X|[]]]; subst k; [apply C3 in Hin|apply C3 in Hin; destruct Hin as [Hin _]; apply B3 in Hin; destruct Hin as [Hin _]; apply A3 in Hin]; cbn in Hin; tauto].
  eexists. split; [reflexivity|]. split; [|split].
  - cbn. constructor; [|constructor; [|exact C4]].
    + intros [X|X]; [discriminate|]. apply in_map_iff in X. destruct X as ([k v] & Ek & Hin). cbn in Ek. subst k. apply C3 in Hin. cbn in Hin. tauto.
    + intros X. apply in_map_iff in X. destruct X as ([k v] & Ek & Hin). cbn in Ek. subst k. apply C3 in Hin. destruct Hin as [Hin _]. apply B3 in Hin. destruct Hin as [Hin _]. apply A3 in Hin. cbn in Hin. tauto.
  - intros k v Hk. destruct (String.string_dec k "label") as [->|N1]; [left; f_equal; apply C1, LBL; exact Hk|].
    destruct (String.string_dec k "color") as [->|N2]; [right; left; f_equal; apply A1, HA; exact Hk|].
    right. right. apply C3. split; [|exact N1]. apply B3. split; [|intros Q; cbn in Q; subst k; exact (asked_not_ls kw v Hk)]. apply A3. split; [apply HA; exact Hk|exact N2].
  - intros k v [E|[E|Hin]].
    + assert (k = "label") by congruence. assert (v = lb) by congruence. subst.
      assert (D : (exists v', In ("label", v') k2) \/ ~ (exists v', In ("label", v') k2)).
      { destruct (in_dec String.string_dec "label" (map fst k2)) as [I1|I1].
        - left. apply in_map_iff in I1. destruct I1 as ([a b] & Ea & I1). cbn in Ea. subst. eauto.
        - right. intros [v' Hv']. apply I1. exact (in_map fst _ _ Hv'). }
      destruct D as [[v' Hv']|D]; [left; rewrite (C1 v' Hv'); apply LBL; exact Hv'|right]. split; [intros v' X; apply D; exists v'; apply LBL; exact X|].
      right. split; [reflexivity|]. apply C2. intros v' X. apply D. eauto.
    + assert (k = "color") by congruence. assert (v = c) by congruence. subst.
      assert (D : (exists v', In ("color", v') nk) \/ ~ (exists v', In ("color", v') nk)).
      { destruct (in_dec String.string_dec "color" (map fst nk)) as [I1|I1].
        - left. apply in_map_iff in I1. destruct I1 as ([a b] & Ea & I1). cbn in Ea. subst. eauto.
        - right. intros [v' Hv']. apply I1. exact (in_map fst _ _ Hv'). }
      destruct D as [[v' Hv']|D]; [left; rewrite (A1 v' Hv'); apply HA; exact Hv'|right]. split; [intros v' X; apply D; exists v'; apply HA; exact X|].
      left. split; [reflexivity|]. apply A2. intros v' X. apply D. eauto.
    + left. apply C3 in Hin. destruct Hin as [Hin _]. apply B3 in Hin. destruct Hin as [Hin _]. apply A3 in Hin. apply HA. tauto.
Qed.
(** Error bars cannot be given a line style, by either name. *)
Theorem C210_style_of_error_bars_refuted kw v : once kw -> asked kw "linestyle" v -> popt_style false kw = Err TypeError.
Proof.
  intros H Hv. destruct (norm_asked kw H) as (nk & EN & ND & HA). unfold popt_style. rewrite EN. cbn [bind].
  destruct (pop "color" "cyan" nk) as [c k1] eqn:E1. destruct (pop "ls" "--" k1) as [ls k2] eqn:E2. destruct (pop "label" "1D Fits" k2) as [lb k3] eqn:E3.
  destruct (pop_find "color" "cyan" nk ND) as (_ & _ & A3 & A4). rewrite E1 in *. cbn [fst snd] in *.
  destruct (pop_find "ls" "--" k1 A4) as (_ & _ & B3 & B4). rewrite E2 in *. cbn [fst snd] in *.
  destruct (pop_find "label" "1D Fits" k2 B4) as (_ & _ & C3 & _). rewrite E3 in *. cbn [fst snd] in *.
  assert (I3 : In ("linestyle", v) k3).
  { apply C3. split; [|discriminate]. apply B3. split; [|discriminate]. apply A3. split; [|discriminate]. apply HA. exact Hv. }
  unfold call_with. replace (existsb _ k3) with true; [reflexivity|]. symmetry. apply existsb_exists. exists ("linestyle", v). split; [exact I3|reflexivity].
Qed.
(** Otherwise they are dashed and have what is asked for. *)
Theorem C210_error_bars_partial kw : once kw -> (forall v, ~ asked kw "linestyle" v) ->
  exists st, popt_style false kw = Ok st /\ In ("linestyle", "--") st /\ (forall k v, asked kw k v -> In (k, v) st)
  /\ (forall k v, In (k, v) st -> asked kw k v \/ In (k, v) [("linestyle", "--"); ("color", "cyan"); ("label", "1D Fits")]).
Proof.
  intros H HN. destruct (norm_asked kw H) as (nk & EN & ND & HA). unfold popt_style. rewrite EN. cbn [bind].
  destruct (pop "color" "cyan" nk) as [c k1] eqn:E1. destruct (pop "ls" "--" k1) as [ls k2] eqn:E2. destruct (pop "label" "1D Fits" k2) as [lb k3] eqn:E3.
  destruct (pop_find "color" "cyan" nk ND) as (A1 & A2 & A3 & A4). rewrite E1 in *. cbn [fst snd] in *.
  destruct (pop_find "ls" "--" k1 A4) as (B1 & B2 & B3 & B4). rewrite E2 in *. cbn [fst snd] in *.
  destruct (pop_find "label" "1D Fits" k2 B4) as (C1 & C2 & C3 & C4). rewrite E3 in *. cbn [fst snd] in *.
  assert (IN3 : forall k v, In (k, v) k3 <-> asked kw k v /\ k <> "color" /\ k <> "label").
  { intros k v. rewrite C3, B3, A3, HA. cbn [fst]. split; [tauto|]. intros (X & N1 & N2). repeat split; auto. intros ->. exact (asked_not_ls kw v X). }
  assert (LS : ls = "--"). { apply B2. intros v X. apply A3 in X. destruct X as [X _]. apply HA in X. exact (asked_not_ls kw v X). }
  assert (CO : forall v, asked kw "color" v -> c = v) by (intros v X; apply A1, HA, X).
  assert (LB : forall v, asked kw "label" v -> lb = v).
  { intros v X. apply C1. apply B3. split; [|discriminate]. apply A3. split; [|discriminate]. apply HA. exact X. }
  rewrite call_ok; [|intros k v Hin; apply IN3 in Hin; destruct Hin as (X & N1 & N2); cbn; intros [Q|[Q|[Q|[]]]]; subst k; [congruence|exact (HN v X)|congruence]].
  eexists. split; [reflexivity|]. split; [cbn; subst ls; auto|]. split.
  - intros k v X. destruct (String.string_dec k "color") as [->|N1]; [left; rewrite (CO v X); reflexivity|].
    destruct (String.string_dec k "label") as [->|N2]; [right; right; left; rewrite (LB v X); reflexivity|].
    right. right. right. apply IN3. auto.
  - assert (DEC : forall (l : list (string * string)) k, (exists v, In (k, v) l) \/ (forall v, ~ In (k, v) l)).
    { intros l k. destruct (in_dec String.string_dec k (map fst l)) as [I1|I1].
      - left. apply in_map_iff in I1. destruct I1 as ([a b] & Ea & I1). cbn in Ea. subst. eauto.
      - right. intros v' Hv'. apply I1. exact (in_map fst _ _ Hv'). }
    intros k v [E|[E|[E|Hin]]].
    + assert (k = "color") by congruence. assert (v = c) by congruence. subst k v. destruct (DEC nk "color") as [[v' X]|D]; [left; rewrite (A1 v' X); apply HA, X|].
      right. rewrite (A2 D). cbn. auto.
    + right. left. congruence.
    + assert (k = "label") by congruence. assert (v = lb) by congruence. subst k v. destruct (DEC k2 "label") as [[v' X]|D].
      * left. rewrite (C1 v' X). apply B3 in X. destruct X as [X _]. apply A3 in X. destruct X as [X _]. apply HA. exact X.
      * right. rewrite (C2 D). cbn. auto.
    + left. apply IN3 in Hin. tauto.
Qed.
(** A property given twice (say, color and c) is refused. *)
Theorem C210_given_twice kw band : ~ once kw -> popt_style band kw = Err TypeError.
Proof. intros H. unfold popt_style. rewrite normalize_twice; [reflexivity|constructor|exact H]. Qed.
(** The plot of the trend and its residuals looks at three of its options. Any other, such as annotate or fit_kwargs, is accepted and
    has no effect. *)
Theorem C210_options_without_effect_refuted kw k v : ~ In k ["annotate_kwargs"; "used_kwargs"; "drawstyle"] -> trend_resid_style ((k, v) :: kw) = trend_resid_style kw.
Proof.
  intros H. cbn in H. assert (N1 : String.eqb k "annotate_kwargs" = false) by (apply String.eqb_neq; intros ->; tauto).
  assert (N2 : String.eqb k "used_kwargs" = false) by (apply String.eqb_neq; intros ->; tauto).
  assert (N3 : String.eqb k "drawstyle" = false) by (apply String.eqb_neq; intros ->; tauto).
  unfold trend_resid_style, pop. cbn [find fst filter]. rewrite N1. cbn [negb filter find fst]. rewrite N2. cbn [negb find fst]. rewrite N3. reflexivity.
Qed.

(* ---------------------------------------------------------------- C211 *)
(** After set_shared_labels the trend has the labels given (and keeps the others), and every 1d fit shows the trend's y along its x axis and the trend's z along
    its y axis; scales and z labels stay. A name other than x, y, z is refused and changes nothing. *)
Theorem C211_shared_labels kw tf ffs :
  ((exists k v, In (k, v) kw /\ ~ In k ["x"; "y"; "z"]) -> set_shared_labels kw tf ffs = Err KeyError)
  /\ (forall tf' z, ff_set_label kw tf = Ok tf' -> ax_z tf' = Some z ->
      set_shared_labels kw tf ffs = Ok (tf', map (fun a => mkAxes (ax_y tf') z (ax_z a) (ax_logx a) (ax_logy a)) ffs)).
Proof.
  split.
  - intros (k & v & Hin & Hk). unfold set_shared_labels, ff_set_label at 1. destruct (forallb _ kw) eqn:E; [|reflexivity].
    rewrite forallb_forall in E. specialize (E _ Hin). cbn [fst] in E. apply mem_str_In in E. contradiction.
  - intros tf' z E Hz. unfold set_shared_labels. rewrite E. cbn [bind]. rewrite Hz.
    assert (M : mapM (ff_set_label [("x", ax_y tf'); ("y", z)]) ffs = Ok (map (fun a => mkAxes (ax_y tf') z (ax_z a) (ax_logx a) (ax_logy a)) ffs)).
    { clear. induction ffs as [|a ffs IH]; [reflexivity|]. cbn [mapM map]. rewrite IH. reflexivity. }
    rewrite M. reflexivity.
Qed.
(** If the trend has no z label, the 1d fits lose the y label they had, and their figures' paths say "None" instead. *)
Theorem C211_without_z_refuted kw tf tf' ffs : ff_set_label kw tf = Ok tf' -> ax_z tf' = None ->
  exists ffs', set_shared_labels kw tf ffs = Ok (tf', ffs') /\ List.length ffs' = List.length ffs
  /\ forall name a, In a ffs' -> nth_error (ff_path name a) 3 = Some "None".
Proof.
  intros E Hz. unfold set_shared_labels. rewrite E. cbn [bind]. rewrite Hz.
  assert (M : mapM (ff_set_label [("x", ax_y tf'); ("y", LPlain "None")]) ffs = Ok (map (fun a => mkAxes (ax_y tf') (LPlain "None") (ax_z a) (ax_logx a) (ax_logy a)) ffs)).
  { clear. induction ffs as [|a ffs IH]; [reflexivity|]. cbn [mapM map]. rewrite IH. reflexivity. }
  rewrite M. cbn [bind]. eexists. split; [reflexivity|]. split; [apply map_length|]. intros name a Ha. apply in_map_iff in Ha. destruct Ha as (b & <- & _). reflexivity.
Qed.

(* ---------------------------------------------------------------- instances *)
Definition ex_fit (m s : R) : ffobj (T := XR) :=
  {| ff_class := Gaussian; ff_obs := lim_obs; ff_popt := Some [("mu", Fin m); ("sigma", Fin s)]; ff_psigma := None |}.
Definition ex_trend : trend (T := XR) := mkTrend [(Fin 1, ex_fit 400 20); (Fin 2, ex_fit 500 30); (Fin 3, ex_fit 450 25)] [].
Definition upto (x : R) : limits (T := XR) := mkLimits None (Some (Fin x)) None None None None None None false.
Lemma ex_made logx x : exists u, trend_func_obs logx "mu" "sigma" (upto x) ex_trend = Ok u /\ u_mask u = map (fun c => Rleb (abscissa logx c) x) [1; 2; 3].
Proof.
  unfold trend_func_obs, trend_obs, popt_1d, ex_trend. cbn [mapM t_ffuncs fst snd ex_fit ff_popt bind rmap dict_get String.eqb Ascii.eqb Bool.eqb].
  unfold init_obs. cbn [o_w upto l_wmin l_wmax].
  eexists. split; [reflexivity|]. cbn [u_mask].
  cbn [map fst snd o_x o_y o_w upto l_xmin l_xmax l_xout l_ymin l_ymax l_yout l_wmin l_wmax l_logy and_mask].
  unfold one_mask, outside_mask. rewrite !abscissa_fin, !fin_isfin, !fin_leb. cbn [andb]. rewrite !andb_true_r. reflexivity.
Qed.
Example C207_ex : centres ex_trend [1; 2; 3] /\ NoDup [1; 2; 3] /\ (exists u, trend_func_obs false "mu" "sigma" (upto 2) ex_trend = Ok u /\ u_mask u = [true; true; false])
  /\ (exists u, trend_func_obs true "mu" "sigma" (upto 10000) ex_trend = Ok u /\ u_mask u = [true; true; true]) /\ 3 < Rpower 10 1.
Proof.
  assert (P1 : Rpower 10 1 = 10) by (apply Rpower_1; lra).
  assert (P2 : Rpower 10 2 = 100) by (replace 2 with (INR 2) by (cbn; lra); rewrite Rpower_pow by lra; lra).
  assert (P3 : Rpower 10 3 = 1000) by (replace 3 with (INR 3) by (cbn; lra); rewrite Rpower_pow by lra; lra).
  split; [reflexivity|]. split; [repeat constructor; cbn; intros X; repeat destruct X as [X|X]; try lra; contradiction|]. split; [|split; [|lra]].
  - destruct (ex_made false 2) as (u & E & M). exists u. split; [exact E|]. rewrite M. cbn [map abscissa].
    rewrite (proj2 (Rleb_true 1 2)), (proj2 (Rleb_true 2 2)), (proj2 (Rleb_false 3 2)) by lra. reflexivity.
  - destruct (ex_made true 10000) as (u & E & M). exists u. split; [exact E|]. rewrite M. cbn [map abscissa]. rewrite P1, P2, P3.
    rewrite !(proj2 (Rleb_true _ _)) by lra. reflexivity.
Qed.
Example C208_ex : exists p, popt_1d ex_trend = Ok p /\ forall i, (i < 3)%nat -> (exists v, parameter ex_trend "mu" i v) /\ (exists v, parameter ex_trend "sigma" i v).
Proof.
  eexists. split; [reflexivity|]. intros i Hi. destruct i as [|[|[|i]]]; [| | |lia]; (split; eexists; eexists; eexists; (split; [reflexivity|]); (split; reflexivity)).
Qed.
(** The third fit is left out by its abscissa, and lies between the two others. *)
Example C209_ex : exists u, trend_func_obs false "mu" "sigma" (upto 2) ex_trend = Ok u /\ in_trend u 0 /\ in_trend u 1 /\ ~ in_trend u 2
  /\ parameter ex_trend "mu" 2 (Fin 450) /\ parameter ex_trend "mu" 0 (Fin 400) /\ parameter ex_trend "mu" 1 (Fin 500) /\ parameter ex_trend "sigma" 2 (Fin 25).
Proof.
  destruct C207_ex as (_ & _ & (u & E & M) & _). exists u. split; [exact E|]. unfold in_trend. rewrite M.
  split; [reflexivity|]. split; [reflexivity|]. split; [discriminate|]. repeat split; eexists; eexists; (split; [reflexivity|]); (split; reflexivity).
Qed.
Example C210_ex : once [("c", "red"); ("lw", "2"); ("ls", ":")] /\ asked [("c", "red"); ("lw", "2"); ("ls", ":")] "linestyle" ":"
  /\ popt_style true [("c", "red"); ("lw", "2"); ("ls", ":")] = Ok [("label", "1D Fits"); ("color", "red"); ("linewidth", "2"); ("linestyle", ":")].
Proof.
  split; [|split; [exists "ls"; split; [cbn; auto|reflexivity]|reflexivity]].
  unfold once. cbn. repeat constructor; cbn; intros X; repeat destruct X as [X|X]; try discriminate; contradiction.
Qed.
Example C211_ex : exists tf', ff_set_label [("y", LObj "v"); ("z", LObj "n")] (mkAxes (LPlain "x") (LPlain "y") None true false) = Ok tf' /\ ax_z tf' = Some (LObj "n").
Proof. eexists. split; reflexivity. Qed.
