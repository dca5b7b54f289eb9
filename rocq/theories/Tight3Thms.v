(** Sharper statements about properties proved elsewhere, found by changing the models, first half: the fit functions
    (C54 medians, C98 and C99 guesses, C103 hinge guess) and C181 (parameters by name). *)
From Coq Require Import Reals List String Ascii Bool Arith ZArith Lra Lia Permutation Sorted.
From Verif Require Import Py PyStr Sort Num FitCore FitFuncs FitCoreThms FitFuncsThms FitGuessThms HistMoreThms.
Import ListNotations.
Open Scope string_scope.
Open Scope list_scope.
Open Scope R_scope.

(* ------------------------------------------------------------------ C181: parameters by name *)
(** The parameters of the class are called as in [ps], in this order, and with these values the curve is at y for x. *)
Definition curve_at (c : ffclass (T := XR)) (ps : list (string * R)) (x y : R) : Prop :=
  c_args c = map fst ps /\ c_fun c (map (fun p => Fin (snd p)) ps) (Fin x) = Fin y.
Theorem C181_named_parameters :
  forall x : R,
  (forall m b, curve_at Line [("m", m); ("b", b)] x (m * x + b)) /\
  (forall m x0, curve_at LineXintercept [("m", m); ("x0", x0)] x (m * (x - x0))) /\
  (forall mu sigma a, sigma <> 0 -> curve_at Gaussian [("mu", mu); ("sigma", sigma); ("A", a)] x (a * exp (- ((x - mu) / sigma) ^ 2 / 2))) /\
  (forall mu sigma n, 0 < sigma -> curve_at GaussianNormalized [("mu", mu); ("sigma", sigma); ("n", n)] x
     (n / (sqrt (2 * PI) * sigma) * exp (- ((x - mu) / sigma) ^ 2 / 2))) /\
  (forall m s a, s <> 0 -> 0 < x -> curve_at GaussianLn [("m", m); ("s", s); ("A", a)] x (a * exp (- ((ln x - m) / s) ^ 2 / 2))) /\
  (forall mu sigma a, sigma <> 0 -> exists y, curve_at Moyal [("mu", mu); ("sigma", sigma); ("A", a)] x y) /\
  (forall a b, 0 < x -> curve_at PowerLaw [("A", a); ("b", b)] x (a * Rpower x b)) /\
  (forall c a, curve_at Exponential [("c", c); ("A", a)] x (a * exp (- (c * x)))) /\
  (forall g x0 y0 y1, x <> x0 -> curve_at (HeavySide g) [("x0", x0); ("y0", y0); ("y1", y1)] x (if Rlt_dec x x0 then y0 + y1 else y0)) /\
  (forall g x1 x2 m1 m2, curve_at (TwoLine g) [("x1", x1); ("x2", x2); ("m1", m1); ("m2", m2)] x (Rmin (m1 * (x - x1)) (m2 * (x - x2)))) /\
  (forall g m1 x1 x2 h, h <> x2 -> curve_at (HingeMin g) [("m1", m1); ("x1", x1); ("x2", x2); ("h", h)] x
     (Rmin (m1 * (x - x1)) (m1 * (h - x1) / (h - x2) * (x - x2)))) /\
  (forall g xh yh m1 m2, m1 <> 0 -> m2 <> 0 -> curve_at (HingeAtPoint g) [("xh", xh); ("yh", yh); ("m1", m1); ("m2", m2)] x
     (Rmin (yh + m1 * (x - xh)) (yh + m2 * (x - xh)))).
Proof.
  intro x. unfold curve_at.
  split; [|split; [|split; [|split; [|split; [|split; [|split; [|split; [|split; [|split; [|split]]]]]]]]]]; intros.
  - split; [reflexivity|]. cbn. unfold line. rewrite fin_mul, fin_add. reflexivity.
  - split; [reflexivity|]. cbn. unfold line_xint. rewrite fin_sub, fin_mul. reflexivity.
  - split; [reflexivity|]. cbn [map Gaussian c_fun ap3 snd]. rewrite gaussian_fin by assumption. reflexivity.
  - split; [reflexivity|]. cbn [map GaussianNormalized c_fun ap3 snd]. unfold gaussian_normalized. change (tpi (T := XR)) with (Fin PI).
    assert (P : 0 < sqrt (2 * PI)) by (apply sqrt_lt_R0; pose proof PI_RGT_0; lra).
    rewrite fin_ofZ, (fin_mul (IZR 2) PI), fin_sqrt by (pose proof PI_RGT_0; lra).
    rewrite fin_mul, fin_div by (apply Rgt_not_eq, Rmult_lt_0_compat; assumption).
    rewrite fin_sub, fin_div, fin_sq, fin_half, fin_opp, fin_mul, fin_exp, fin_mul by lra. do 3 f_equal. field. lra.
  - split; [reflexivity|]. cbn [map GaussianLn c_fun ap3 snd]. unfold gaussian_ln. rewrite fin_ln by assumption.
    rewrite fin_sub, fin_div, fin_sq, fin_half, fin_opp, fin_mul, fin_exp, fin_mul by assumption. do 3 f_equal. field. assumption.
  - cbn [map Moyal c_fun ap3 snd]. unfold moyal. eexists. split; [reflexivity|]. cbv zeta.
    rewrite fin_sub, fin_div, fin_sq, fin_half, fin_exp, fin_sub, fin_mul, !fin_exp, fin_ofZ, fin_sub, fin_mul by assumption. reflexivity.
  - split; [reflexivity|]. cbn [map PowerLaw c_fun ap2 snd]. unfold power_law. rewrite fin_pow, fin_mul by assumption. reflexivity.
  - split; [reflexivity|]. cbn [map Exponential c_fun ap2 snd]. unfold exponential. rewrite fin_mul, fin_opp, fin_exp, fin_mul. reflexivity.
  - split; [reflexivity|]. cbn [map HeavySide c_fun ap3 snd]. destruct (C51_step_levels x x0 y0 y1) as [A B]. destruct (Rlt_dec x x0) as [L|L]; [apply A, L|apply B; lra].
  - split; [reflexivity|]. cbn [map TwoLine c_fun ap4 snd]. unfold twoline. rewrite !fin_sub, !fin_mul, fin_min. reflexivity.
  - split; [reflexivity|]. cbn [map HingeMin c_fun ap4 snd]. unfold hinge_min, hinge_m2. rewrite !fin_sub, !fin_mul, fin_div by lra. rewrite fin_mul, fin_min. reflexivity.
  - split; [reflexivity|]. cbn [map HingeAtPoint c_fun ap4 snd]. unfold hinge_at_point. cbv zeta. rewrite !fin_div by assumption. rewrite !fin_sub, !fin_mul, fin_min.
    f_equal. f_equal; field; assumption.
Qed.
Print Assumptions C181_named_parameters.
(** After a successful fit, popt and psigma are keyed by exactly these names, and calling the object evaluates the curve there. *)
Theorem C181_fitted_values_by_name :
  forall lsq o rx k o' ps, make_fit lsq o rx k = (Returned None, o') -> c_discards (ff_class o) = false ->
  c_args (ff_class o) = map fst ps -> ff_popt o' = Some (map (fun p => (fst p, Fin (snd p))) ps) -> NoDup (map fst ps) ->
  forall x y, curve_at (ff_class o) ps x y -> evaluate o' (Fin x) = Ok (Fin y).
Proof.
  intros lsq o rx k o' ps H D A P N x y [_ C].
  assert (K : ff_class o' = ff_class o).
  { unfold make_fit, base_make_fit in H. rewrite D in H.
    destruct (negb _); [destruct rx; discriminate H|]. destruct (k_absolute_sigma k); [discriminate H|].
    destruct (run_least_squares lsq o k) as [[a b]|e]; [injection H as <-; reflexivity|]. destruct (caught e && rx); discriminate H. }
  unfold evaluate. rewrite P, K, A.
  assert (G : mapM (fun k0 => dict_get k0 (map (fun p => (fst p, Fin (snd p))) ps)) (map fst ps) = Ok (map (fun p => Fin (snd p)) ps)).
  { clear - N. assert (G : forall l d, (forall p, In p l -> dict_get (fst p) d = Ok (Fin (snd p))) -> mapM (fun k0 => dict_get k0 d) (map fst l) = Ok (map (fun p => Fin (snd p)) l)).
    { induction l as [|p l IH]; intros d H; [reflexivity|]. cbn [map mapM]. rewrite (H p) by (left; reflexivity). cbn [bind].
      rewrite IH by (intros q Q; apply H; right; exact Q). reflexivity. }
    apply G. clear G. induction ps as [|p ps IH]; intros q Q; [contradiction|]. cbn [map dict_get fst]. cbn [map] in N. inversion N as [|? ? N1 N2]; subst.
    destruct Q as [<-|Q]; [rewrite String.eqb_refl; reflexivity|]. destruct (String.eqb (fst p) (fst q)) eqn:E; [|apply IH; assumption].
    apply String.eqb_eq in E. exfalso. apply N1. rewrite E. apply in_map, Q. }
  rewrite G. cbn [rmap]. rewrite C. reflexivity.
Qed.
Print Assumptions C181_fitted_values_by_name.
Example C181_ex : curve_at Line [("m", 2); ("b", 1)] 3 7 /\ NoDup (map fst [("m", 2); ("b", 1)]).
Proof.
  split; [replace 7 with (2 * 3 + 1) by ring; apply C181_named_parameters|]. cbn. constructor; [intros [E|[]]; discriminate E|constructor; [intros []|constructor]].
Qed.

(* ------------------------------------------------------------------ C54: medians *)
Lemma sorted_leP l : StronglySorted Rle l -> StronglySorted (leP Rleb) l.
Proof. intro H. induction H as [|a l H IH F]; constructor; [exact IH|]. eapply Forall_impl; [|exact F]. intros b Hb. apply Rleb_true, Hb. Qed.
Lemma Rleb_anti a b : Rleb a b = true -> Rleb b a = true -> a = b.
Proof. rewrite !Rleb_true. lra. Qed.
(** values below the middle, the middle, values above *)
Definition below_all (s : list R) (m : R) : Prop := forall v, In v s -> v <= m.
Definition above_all (s : list R) (m : R) : Prop := forall v, In v s -> m <= v.
Lemma sorted_app (a b : list R) (le : R -> R -> Prop) : StronglySorted le a -> StronglySorted le b -> (forall x y, In x a -> In y b -> le x y) -> StronglySorted le (a ++ b).
Proof.
  intros HA HB H. induction HA as [|x a HA IH F]; [exact HB|]. cbn [app]. constructor; [apply IH; intros; apply H; [right|]; assumption|].
  apply Forall_app. split; [exact F|]. apply Forall_forall. intros y Hy. apply H; [left; reflexivity|exact Hy].
Qed.
Lemma sort_around (l s mid t : list R) : Permutation l (s ++ mid ++ t) -> StronglySorted Rle mid ->
  (forall x y, In x s -> In y (mid ++ t) -> x <= y) -> (forall x y, In x mid -> In y t -> x <= y) ->
  sort_by Rleb l = sort_by Rleb s ++ mid ++ sort_by Rleb t.
Proof.
  intros P SM H1 H2. apply (sorted_perm_unique Rleb Rleb_anti).
  - apply sort_by_sorted; [apply Rleb_total|apply Rleb_trans].
  - apply sorted_app; [apply sort_by_sorted; [apply Rleb_total|apply Rleb_trans]| |].
    + apply sorted_app; [apply sorted_leP, SM|apply sort_by_sorted; [apply Rleb_total|apply Rleb_trans]|].
      intros x y X Y. apply Rleb_true. apply H2; [exact X|]. exact (proj1 (sort_by_In _ _ _) Y).
    + intros x y X Y. apply Rleb_true. apply H1; [exact (proj1 (sort_by_In _ _ _) X)|].
      apply in_app_or in Y. apply in_or_app. destruct Y as [Y|Y]; [left; exact Y|right; exact (proj1 (sort_by_In _ _ _) Y)].
  - eapply perm_trans; [apply sort_by_perm|]. eapply perm_trans; [exact P|].
    apply Permutation_app; [apply Permutation_sym, sort_by_perm|]. apply Permutation_app_head. apply Permutation_sym, sort_by_perm.
Qed.
Lemma median_fin (l : list R) : median (map Fin l) = median_sorted (map Fin (sort_by Rleb l)).
Proof.
  unfold median, sorted. rewrite sort_fin. replace (existsb aisnan (map Fin l)) with false; [reflexivity|].
  symmetry. induction l as [|a l IH]; [reflexivity|]. cbn [map existsb]. rewrite fin_isnan. exact IH.
Qed.
(** Every guess built on medians takes the middle value, or the mean of the two middle ones. *)
Theorem C54_median :
  (forall l s m t, Permutation l (s ++ [m] ++ t) -> List.length s = List.length t -> below_all s m -> above_all t m -> median (map Fin l) = Fin m) /\
  (forall l s a b t, Permutation l (s ++ [a; b] ++ t) -> List.length s = List.length t -> a <= b -> below_all s a -> above_all t b ->
     median (map Fin l) = Fin ((a + b) / 2)) /\
  median [] = (anan : XR) /\ (forall l, In NaN l -> median l = NaN).
Proof.
  split; [|split; [|split]].
  - intros l s m t P E B U. rewrite median_fin. rewrite (sort_around l s [m] t P).
    + unfold median_sorted. rewrite map_length, !app_length, !sort_by_length, <- E. cbn [List.length].
      replace (List.length s + (1 + List.length s))%nat with (1 + 2 * List.length s)%nat by lia.
      rewrite Nat.odd_add_mul_2. cbn [Nat.odd Nat.even negb]. replace (Nat.eqb (1 + 2 * List.length s) 0) with false by reflexivity.
      replace ((1 + 2 * List.length s) / 2)%nat with (List.length s) by (rewrite Nat.mul_comm, Nat.div_add by lia; reflexivity).
      rewrite map_app, app_nth2; rewrite map_length, sort_by_length; [|lia]. rewrite Nat.sub_diag. reflexivity.
    + constructor; constructor.
    + intros x y X [<-|Y]; [apply B, X|]. apply Rle_trans with m; [apply B, X|apply U, Y].
    + intros x y [<-|[]] Y. apply U, Y.
  - intros l s a b t P E AB B U. rewrite median_fin. rewrite (sort_around l s [a; b] t P).
    + unfold median_sorted. rewrite map_length, !app_length, !sort_by_length, <- E. cbn [List.length].
      replace (List.length s + (2 + List.length s))%nat with (0 + 2 * (List.length s + 1))%nat by lia.
      rewrite Nat.odd_add_mul_2. cbn [Nat.odd Nat.even negb]. destruct (Nat.eqb (0 + 2 * (List.length s + 1)) 0) eqn:Z; [apply Nat.eqb_eq in Z; lia|].
      replace ((0 + 2 * (List.length s + 1)) / 2)%nat with (List.length s + 1)%nat by (rewrite Nat.mul_comm, Nat.div_add by lia; reflexivity).
      rewrite map_app, !app_nth2; rewrite ?map_length, ?sort_by_length; try lia.
      replace (List.length s + 1 - 1 - List.length s)%nat with 0%nat by lia. replace (List.length s + 1 - List.length s)%nat with 1%nat by lia.
      cbn [map app nth]. rewrite fin_ofZ, fin_add, fin_div by lra. reflexivity.
    + constructor; [constructor; constructor|]. constructor; [exact AB|constructor].
    + intros x y X Y. specialize (B x X). destruct Y as [<-|[<-|Y]]; [exact B|lra|]. specialize (U y Y). lra.
    + intros x y [<-|[<-|[]]] Y; specialize (U y Y); lra.
  - reflexivity.
  - intros l I. unfold median. replace (existsb aisnan l) with true; [reflexivity|]. symmetry. apply existsb_exists. exists NaN. split; [exact I|reflexivity].
Qed.
Print Assumptions C54_median.
Example C54_median_ex : median (map Fin [4; 1; 2; 9]) = Fin 3.
Proof.
  replace 3 with ((2 + 4) / 2) by field. apply (proj1 (proj2 C54_median) _ [1] 2 4 [9]).
  - cbn [app]. apply perm_trans with [1; 4; 2; 9]; [apply perm_swap|apply perm_skip, perm_swap].
  - reflexivity.
  - lra.
  - intros v [<-|[]]; lra.
  - intros v [<-|[]]; lra.
Qed.

(* ------------------------------------------------------------------ C98, C99, C103: starting points *)
Definition is_min (v : R) (l : list R) : Prop := In v l /\ forall y, In y l -> v <= y.
Lemma fold_min_fin l a : exists v, fold_left np_minimum (map Fin l) (Fin a) = Fin v /\ is_min v (a :: l).
Proof.
  revert a. induction l as [|b l IH]; intros a; cbn [map fold_left].
  - exists a. split; [reflexivity|]. split; [left; reflexivity|]. intros y [<-|[]]. lra.
  - rewrite fin_min. destruct (IH (Rmin a b)) as (v & E & I & M). exists v. split; [exact E|]. split.
    + destruct I as [<-|I]; [|right; right; exact I]. unfold Rmin. destruct (Rle_dec a b); cbn; auto.
    + intros y [<-|[<-|Y]]; [| |apply M; right; exact Y]; eapply Rle_trans; try (apply M; left; reflexivity); [apply Rmin_l|apply Rmin_r].
Qed.
Lemma arr_min_fin (l : list R) : l <> [] -> exists v, arr_min (map Fin l) = Ok (Fin v) /\ is_min v l.
Proof. destruct l as [|a l]; [contradiction|]. intros _. destruct (fold_min_fin l a) as (v & E & M). exists v. cbn [map arr_min]. rewrite E. split; [reflexivity|exact M]. Qed.
Lemma xs_map (pts : list (R * R)) : xs_of pts = map Fin (map fst pts). Proof. rewrite map_map. reflexivity. Qed.

(** Without a guess for x0 the step is put half way between the smallest and the largest x. *)
Theorem C98_default_step_position :
  forall pts lo hi gy0 gy1, is_min lo (map fst pts) -> is_max hi (map fst pts) ->
  heavy_side_p0 (mkStepGuess None gy0 gy1) (real_obs pts) = heavy_side_p0 (mkStepGuess (Some (Fin ((lo + hi) / 2))) gy0 gy1) (real_obs pts) /\
  exists y0 y1, heavy_side_p0 (mkStepGuess None gy0 gy1) (real_obs pts) = Ok (Some [Fin ((lo + hi) / 2); y0; y1]).
Proof.
  intros pts lo hi gy0 gy1 [ML ML2] [MH MH2]. unfold heavy_side_p0, real_obs. cbn [o_x o_y g_x0 g_y0 g_y1].
  assert (NE : map fst pts <> []) by (destruct (map fst pts); [contradiction|discriminate]).
  rewrite xs_map. destruct (arr_max_fin _ NE) as (h & -> & H1 & H2). destruct (arr_min_fin _ NE) as (l & -> & L1 & L2). cbn [bind].
  assert (h = hi) by (apply Rle_antisym; [apply MH2, H1|apply H2, MH]). assert (l = lo) by (apply Rle_antisym; [apply L2, ML|apply ML2, L1]). subst h l.
  rewrite fin_add, fin_ofZ, fin_div by lra. rewrite (Rplus_comm hi lo). split; [reflexivity|].
  destruct gy0 as [g0|], gy1 as [g1|]; eexists _, _; reflexivity.
Qed.
Print Assumptions C98_default_step_position.
Example C98_default_ex : is_min 1 (map fst [(3, 5); (1, 6); (2, 4)]) /\ is_max 3 (map fst [(3, 5); (1, 6); (2, 4)]).
Proof. split; (split; [cbn; auto|]); cbn; intros y [<-|[<-|[<-|[]]]]; lra. Qed.

(** The guess of GaussianNormalized is the area under the Gaussian guessed for the same data. *)
Theorem C99_normalized_guess :
  forall pts, histogram pts -> exists mu sigma amp,
  gaussian_p0 (real_obs pts) = Ok (Some [Fin mu; Fin sigma; Fin amp]) /\
  gaussian_normalized_p0 (real_obs pts) = Ok (Some [Fin mu; Fin sigma; Fin (amp * sigma * sqrt (2 * PI))]) /\
  (forall x, 0 < sigma -> exists y, curve_at Gaussian [("mu", mu); ("sigma", sigma); ("A", amp)] x y /\
     curve_at GaussianNormalized [("mu", mu); ("sigma", sigma); ("n", amp * sigma * sqrt (2 * PI))] x y).
Proof.
  intros pts HG. pose proof (total_pos pts HG) as TP. destruct HG as [NN (p & Ip & Hp)].
  unfold gaussian_p0, gaussian_normalized_p0, real_obs. cbn [o_x o_y]. rewrite wmean_fin, wvar_fin, ys_map by lra.
  destruct (arr_max_fin (map snd pts)) as (v & -> & M). { destruct pts; [contradiction|discriminate]. } cbn [rmap].
  assert (SP : 0 <= spread2 pts).
  { unfold spread2. apply Rmult_le_pos; [|left; apply Rinv_0_lt_compat, TP]. apply Rsum_nonneg. intros y Hy. apply in_map_iff in Hy.
    destruct Hy as (z & <- & I). apply Rmult_le_pos; [apply pow2_ge_0|apply NN, I]. }
  rewrite fin_sqrt by exact SP. eexists _, _, _. split; [reflexivity|].
  assert (P : 0 < sqrt (2 * PI)) by (apply sqrt_lt_R0; pose proof PI_RGT_0; lra).
  split.
  - cbv zeta. change (tpi (T := XR)) with (Fin PI). rewrite fin_ofZ, (fin_mul (IZR 2) PI), fin_sqrt by (pose proof PI_RGT_0; lra). rewrite !fin_mul. reflexivity.
  - intros x S. destruct (C181_named_parameters x) as (_ & _ & G & GN & _).
    eexists. split; [apply G; lra|]. specialize (GN (center pts) (sqrt (spread2 pts)) (v * sqrt (spread2 pts) * sqrt (2 * PI)) S).
    replace (v * sqrt (spread2 pts) * sqrt (2 * PI) / (sqrt (2 * PI) * sqrt (spread2 pts))) with v in GN by (field; lra). exact GN.
Qed.
Print Assumptions C99_normalized_guess.
Example C99_normalized_ex : histogram [(1, 2); (2, 4); (3, 2)].
Proof. split; [intros p [<-|[<-|[<-|[]]]]; cbn; lra|exists (1, 2); cbn; split; [auto|lra]]. Qed.

(** HingeMin and HingeMax with fewer than two points below the hinge: the mean slope of all data, from the smallest x. *)
Theorem C103_hinge_guess_without_left_points :
  forall pts h xmin xmax ymin ymax, is_min xmin (map fst pts) -> is_max xmax (map fst pts) -> is_min ymin (map snd pts) -> is_max ymax (map snd pts) ->
  xmin < xmax -> (List.length (filter (fun p => Rltb (fst p) h) pts) < 2)%nat ->
  exists x2, hinge_p0 (Fin h) (real_obs pts) = Ok (Some [Fin ((ymax - ymin) / (xmax - xmin)); Fin xmin; x2; Fin h]).
Proof.
  intros pts h xmin xmax ymin ymax [A1 A2] [B1 B2] [D1 D2] [E1 E2] LT N. unfold hinge_p0, real_obs. cbn [o_x o_y].
  assert (C : count (fun v : XR => altb v (Fin h)) (xs_of pts) = List.length (filter (fun p => Rltb (fst p) h) pts)).
  { unfold count. clear. induction pts as [|p r IH]; [reflexivity|]. cbn [map filter]. rewrite fin_ltb. destruct (Rltb (fst p) h); cbn [List.length]; rewrite IH; reflexivity. }
  cbv zeta. rewrite C. replace (Nat.leb 2 _) with false by (symmetry; apply Nat.leb_gt; exact N).
  assert (NE : map fst pts <> []) by (destruct (map fst pts); [contradiction|discriminate]).
  assert (NE2 : map snd pts <> []) by (destruct (map snd pts); [contradiction|discriminate]).
  rewrite xs_map, ys_map.
  destruct (arr_max_fin _ NE2) as (yh & -> & H1 & H2). destruct (arr_min_fin _ NE2) as (yl & -> & L1 & L2).
  destruct (arr_max_fin _ NE) as (xh & -> & I1 & I2). destruct (arr_min_fin _ NE) as (xl & -> & J1 & J2). cbn [bind].
  assert (yh = ymax) by (apply Rle_antisym; [apply E2, H1|apply H2, E1]). assert (yl = ymin) by (apply Rle_antisym; [apply L2, D1|apply D2, L1]).
  assert (xh = xmax) by (apply Rle_antisym; [apply B2, I1|apply I2, B1]). assert (xl = xmin) by (apply Rle_antisym; [apply J2, A1|apply A2, J1]). subst.
  rewrite !fin_sub, fin_div by lra. cbn [fst snd]. eexists. reflexivity.
Qed.
Print Assumptions C103_hinge_guess_without_left_points.
Example C103_hinge_ex : is_min 1 (map fst [(1, 2); (3, 5)]) /\ is_max 3 (map fst [(1, 2); (3, 5)]) /\ is_min 2 (map snd [(1, 2); (3, 5)]) /\ is_max 5 (map snd [(1, 2); (3, 5)]) /\
  (List.length (filter (fun p : R * R => Rltb (fst p) 2) [(1, 2); (3, 5)]%R) < 2)%nat.
Proof.
  repeat match goal with |- _ /\ _ => split | |- is_min _ _ => split | |- is_max _ _ => split end; cbn; try (auto; fail); try (intros y [<-|[<-|[]]]; lra).
  rewrite (proj2 (Rltb_true 1 2)) by lra. rewrite (proj2 (Rltb_false 3 2)) by lra. cbn. lia.
Qed.
