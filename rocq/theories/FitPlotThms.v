(** C139 (plotted residuals), C140 (paths of fit plots), C141 (how many points are marked), C142 (which residuals are
    drawn), C143 (keyword dictionaries are left alone), C144 (legend labels of residuals), C145 (error windows). *)
From Coq Require Import List String Ascii Bool Arith ZArith Reals Lra Lia.
From Verif Require Import Py PyStr Num FitCore FitCoreThms FitPlot.
Import ListNotations.
Open Scope string_scope.
Open Scope list_scope.
Open Scope R_scope.

(* ================================================================ C139 *)
Lemma select_map {A B} (f : A -> B) m l : select m (map f l) = map f (select m l).
Proof. revert l. induction m as [|[|] m IH]; intros [|x l]; cbn; try reflexivity; rewrite IH; reflexivity. Qed.
Lemma nth_map2_residual (h : XR -> XR -> XR) (f : XR -> XR) xs ys i x y : nth_error xs i = Some x -> nth_error ys i = Some y ->
  nth_error (map2 h (map f xs) ys) i = Some (h (f x) y).
Proof. intros Hx Hy. apply map2_nth; [rewrite nth_error_map, Hx; reflexivity|exact Hy]. Qed.
(** The residuals that are plotted are fit minus observation at each used point: the opposite of what FitFunction.residuals
    returns (observation minus fit), also in percent of the fit. *)
Theorem C139_plotted_residuals_partial :
  forall (raw : obs (T := XR)) l u f g fn, set_fit_obs raw l = Ok u -> finite_on f g ->
  exists p, ff_new u (map f (o_x raw)) fn = Ok p /\
  forall pct, exists rs, ff_residuals p pct false = Ok rs /\ List.length rs = List.length (o_x (u_used u)) /\
  forall i x y, nth_error (o_x (u_used u)) i = Some (Fin x) -> nth_error (o_y (u_used u)) i = Some (Fin y) -> g x <> 0 ->
    let c := if pct then 100 / g x else 1 in
    nth_error rs i = Some (Fin (c * (g x - y))) /\ nth_error (residuals pct f (u_used u)) i = Some (Fin (- (c * (g x - y)))).
Proof.
  intros raw l u f g fn H F. destruct (C47_used_are_the_admissible_observations raw l u H) as (ER & LM & _ & EX & EY & _ & N1 & N2).
  eexists. split.
  { unfold ff_new. rewrite map_length, ER, Nat.eqb_refl, select_map, map_length, EX, Nat.eqb_refl. reflexivity. }
  intro pct. unfold ff_residuals. cbn [p_obs p_yfit p_fun bind]. eexists. split; [reflexivity|].
  rewrite select_map, <- EX.
  assert (LL : List.length (o_x (u_used u)) = List.length (o_y (u_used u))) by congruence.
  split.
  { assert (L1 : List.length (map2 (fun a b : XR => (a - b)%num) (map f (o_x (u_used u))) (o_y (u_used u))) = List.length (o_x (u_used u)))
      by (rewrite map2_length; rewrite map_length; lia).
    destruct pct; [|exact L1]. rewrite map2_length; [exact L1|]. rewrite map_length. exact L1. }
  intros i x y Hx Hy G. split.
  - destruct pct.
    + erewrite map2_nth; [|apply nth_map2_residual; eassumption|rewrite nth_error_map, Hx; reflexivity].
      rewrite !F, fin_sub, (fin_div _ _ G), fin_ofZ, fin_mul. do 2 f_equal. field. exact G.
    + rewrite (nth_map2_residual _ _ _ _ _ _ _ Hx Hy), !F, fin_sub. do 2 f_equal. ring.
  - unfold residuals. erewrite map2_nth; [|eassumption|eassumption]. unfold residual. rewrite F. destruct pct.
    + rewrite !fin_ofZ, fin_eqb, (proj2 (Reqb_false _ _) G), !F, fin_sub, (fin_div _ _ G), fin_mul. do 2 f_equal. field. exact G.
    + rewrite F, fin_sub. do 2 f_equal. ring.
Qed.
Print Assumptions C139_plotted_residuals_partial.
Definition no_lims : limits (T := XR) := mkLimits None None None None None None None None false.
(** So the plotted residuals are not the residuals of the fit. *)
Theorem C139_same_residuals_refuted :
  ~ (forall (raw : obs (T := XR)) l u f fn p pct, set_fit_obs raw l = Ok u -> ff_new u (map f (o_x raw)) fn = Ok p ->
       ff_residuals p pct false = Ok (residuals pct f (u_used u))).
Proof.
  intro H.
  pose (raw := mkObs (T := XR) [Fin 1] [Fin 3] None). pose (f := fun _ : XR => Fin 1).
  assert (E : set_fit_obs raw no_lims = Ok {| u_used := raw; u_raw := raw; u_mask := [true] |}) by reflexivity.
  assert (E2 : ff_new {| u_used := raw; u_raw := raw; u_mask := [true] |} (map f (o_x raw)) None = Ok {| p_obs := {| u_used := raw; u_raw := raw; u_mask := [true] |}; p_yfit := [Fin 1]; p_fun := None |}) by reflexivity.
  specialize (H _ _ _ _ _ _ false E E2). unfold ff_residuals, residuals, residual in H. cbn [p_obs p_yfit u_mask u_used raw select o_y o_x map2 bind] in H.
  unfold f in H. rewrite !fin_sub in H. injection H as H. lra.
Qed.
(** A zero of the fit: FitFunction gives NaN there, the plot an infinity or NaN. *)
Theorem C139_zero_of_the_fit : forall u (yfit : list XR) y i, nth_error (select (u_mask u) yfit) i = Some (Fin 0) -> nth_error (o_y (u_used u)) i = Some (Fin y) -> y <> 0 ->
  forall p fn rs, ff_new u yfit fn = Ok p -> ff_residuals p true false = Ok rs -> exists r, nth_error rs i = Some r /\ (r = PInf \/ r = MInf).
Proof.
  intros u yfit y i Hf Hy Ny p fn rs E R. unfold ff_new in E. destruct (negb _); [discriminate|]. destruct (negb _); [discriminate|]. injection E as <-.
  unfold ff_residuals in R. cbn [p_obs p_yfit bind] in R. injection R as <-. eexists. split.
  { erewrite map2_nth; [reflexivity|erewrite map2_nth; [reflexivity|exact Hf|exact Hy]|exact Hf]. }
  rewrite fin_sub, fin_ofZ. change (Fin (0 - y) / Fin 0)%num with (xdiv (Fin (0 - y)) (Fin 0)). unfold xdiv.
  rewrite (proj2 (Reqb_true 0 0) eq_refl). unfold inf_sign. destruct (Rltb 0 (0 - y)) eqn:P; [|destruct (Rltb (0 - y) 0) eqn:Q].
  - left. change (xmul (Fin 100) PInf = PInf). unfold xmul, inf_sign. rewrite (proj2 (Rltb_true 0 100)) by lra. reflexivity.
  - right. change (xmul (Fin 100) MInf = MInf). unfold xmul, inf_sign. rewrite (proj2 (Rltb_true 0 100)) by lra. reflexivity.
  - apply Rltb_false in P, Q. lra.
Qed.
(** A fitted curve of the wrong length is refused. *)
Theorem C139_wrong_length : forall u (yfit : list XR) fn, List.length yfit <> List.length (o_x (u_raw u)) -> ff_new u yfit fn = Err AssertionError.
Proof. intros u yfit fn N. unfold ff_new. rewrite (proj2 (Nat.eqb_neq _ _) N). reflexivity. Qed.
Example C139_ex : exists u, set_fit_obs (mkObs (T := XR) [Fin 1; Fin 2] [Fin 3; Fin 5] None) no_lims = Ok u /\ finite_on (fun x => amul (Fin 2) x) (fun a => 2 * a) /\ nth_error (o_x (u_used u)) 1 = Some (Fin 2).
Proof. eexists. split; [reflexivity|]. split; [intro a; apply fin_mul|reflexivity]. Qed.

(* ================================================================ C140 *)
(** The y scale is not part of the path: a plot with a linear and one with a logarithmic y axis share it. *)
Theorem C140_linear_and_log_y_share_a_path_refuted :
  forall name a, ff_path name (mkAxes (ax_x a) (ax_y a) (ax_z a) (ax_logx a) true) = ff_path name (mkAxes (ax_x a) (ax_y a) (ax_z a) (ax_logx a) false).
Proof. reflexivity. Qed.
(** Everything else is: plots with equal paths have the same function name, label components and x scale. *)
Theorem C140_path_identifies_the_plot_partial : forall n n' a a', ff_path n a = ff_path n' a' ->
  n = n' /\ ff_component (ax_x a) = ff_component (ax_x a') /\ ff_component (ax_y a) = ff_component (ax_y a')
  /\ option_map ff_component (ax_z a) = option_map ff_component (ax_z a') /\ ax_logx a = ax_logx a'.
Proof.
  intros n n' a a' H. unfold ff_path in H. cbn [app] in H. injection H as H1 H2 H3 H4.
  split; [exact H1|]. split; [exact H2|]. split; [exact H3|].
  destruct (ax_z a), (ax_z a'); cbn [app option_map] in *; try discriminate.
  - injection H4 as H4 H5. split; [rewrite H4; reflexivity|]. destruct (ax_logx a), (ax_logx a'), (ax_logy a), (ax_logy a'); first [reflexivity|discriminate H5].
  - injection H4 as H4. split; [reflexivity|]. destruct (ax_logx a), (ax_logx a'), (ax_logy a), (ax_logy a'); first [reflexivity|discriminate H4].
Qed.
Theorem C140_path_components : forall name x y z lx ly,
  ff_path name (mkAxes (LObj x) (LPlain y) (Some (LObj z)) lx ly) = ["FFPlot"; name; x; y; z; if lx then "logX_logY" else "linX_logY"]
  /\ ff_path name (mkAxes (LPlain x) (LObj y) None lx ly) = ["FFPlot"; name; x; y; if lx then "logX_logY" else "linX_logY"].
Proof. intros. destruct lx, ly; split; reflexivity. Qed.
(** set_log and set_labels change what is named and nothing else; unknown names are refused. *)
Definition lookup {V} (k : string) (kw : list (string * V)) (d : V) : V :=
  match find (fun e => String.eqb (fst e) k) kw with Some (_, v) => v | None => d end.
Theorem C140_set_log : forall kw a,
  ((forall k v, In (k, v) kw -> k = "x" \/ k = "y") ->
     ff_set_log kw a = Ok (mkAxes (ax_x a) (ax_y a) (ax_z a) (lookup "x" kw (ax_logx a)) (lookup "y" kw (ax_logy a))))
  /\ (forall k v, In (k, v) kw -> k <> "x" -> k <> "y" -> ff_set_log kw a = Err TypeError).
Proof.
  intros kw a. unfold ff_set_log. split.
  - intros H. rewrite (proj2 (forallb_forall _ kw)); [reflexivity|]. intros [k v] I. cbn [fst]. apply mem_str_In. destruct (H k v I) as [->| ->]; cbn; tauto.
  - intros k v I Nx Ny. destruct (forallb _ kw) eqn:E; [|reflexivity]. exfalso. pose proof (proj1 (forallb_forall _ _) E _ I) as Q. cbn [fst] in Q. apply mem_str_In in Q. cbn in Q. intuition congruence.
Qed.
Theorem C140_set_labels : forall kw a,
  ((forall k v, In (k, v) kw -> k = "x" \/ k = "y" \/ k = "z") ->
     ff_set_label kw a = Ok (mkAxes (lookup "x" kw (ax_x a)) (lookup "y" kw (ax_y a))
        (match find (fun e => String.eqb (fst e) "z") kw with Some (_, v) => Some v | None => ax_z a end) (ax_logx a) (ax_logy a)))
  /\ (forall k v, In (k, v) kw -> k <> "x" -> k <> "y" -> k <> "z" -> ff_set_label kw a = Err KeyError).
Proof.
  intros kw a. unfold ff_set_label. split.
  - intros H. rewrite (proj2 (forallb_forall _ kw)); [reflexivity|]. intros [k v] I. cbn [fst]. apply mem_str_In. destruct (H k v I) as [->|[->| ->]]; cbn; tauto.
  - intros k v I Nx Ny Nz. destruct (forallb _ kw) eqn:E; [|reflexivity]. exfalso. pose proof (proj1 (forallb_forall _ _) E _ I) as Q. cbn [fst] in Q. apply mem_str_In in Q. cbn in Q. intuition congruence.
Qed.
Example C140_ex : ff_set_log [("y", true)] (mkAxes (LPlain "a") (LPlain "b") None true false) = Ok (mkAxes (LPlain "a") (LPlain "b") None true true).
Proof. reflexivity. Qed.

(* ================================================================ C141 *)
Lemma Int_part_between (r : R) (k : Z) : IZR k <= r < IZR k + 1 -> Int_part r = k.
Proof.
  intros [H1 H2]. destruct (base_Int_part r) as [B1 B2].
  assert (IZR k < IZR (Int_part r) + 1) by lra. assert (IZR (Int_part r) < IZR k + 1) by lra.
  rewrite <- plus_IZR in *. apply lt_IZR in H, H0. lia.
Qed.
Lemma ln_pow10 (k : nat) : ln (10 ^ k) = INR k * ln 10.
Proof. induction k as [|k IH]; [cbn; rewrite ln_1; ring|]. cbn [pow]. rewrite ln_mult, IH, S_INR; [ring|lra|apply pow_lt; lra]. Qed.
Lemma pow10_bracket (n : nat) : (0 < n)%nat -> exists k : nat, (10 ^ k <= n < 10 ^ (S k))%nat.
Proof.
  intros P.
  induction n as [|n IH]; [lia|]. destruct n as [|n]; [exists 0%nat; cbn; lia|].
  destruct IH as [k [K1 K2]]; [lia|]. destruct (Nat.lt_ge_cases (S (S n)) (10 ^ S k)) as [L|L].
  - exists k. lia.
  - exists (S k). split; [exact L|]. change (10 ^ S (S k))%nat with (10 * 10 ^ S k)%nat. lia.
Qed.
Lemma pow_INR10 k : INR (10 ^ k) = 10 ^ k.
Proof. rewrite pow_INR. f_equal. cbn. lra. Qed.
(** With n used points every m-th is marked, m a power of ten, so that the marks number between 10 and 99; below ten
    points matplotlib's default (every point) is used. *)
Theorem C141_number_of_marks : forall n,
  (markevery n = None <-> (n < 10)%nat) /\
  (forall m, markevery n = Some m -> (0 < m)%Z /\ (10 * m <= Z.of_nat n < 100 * m)%Z /\ exists k, m = (10 ^ Z.of_nat k)%Z).
Proof.
  intros n. destruct n as [|n]; [cbn; split; [split; [lia|reflexivity]|discriminate]|].
  destruct (pow10_bracket (S n)) as [k [K1 K2]]; [lia|].
  unfold markevery. cbv zeta.
  assert (L10 := ln10_pos).
  assert (P : 0 < INR (S n)) by (apply lt_0_INR; lia).
  assert (B1 : INR k * ln 10 <= ln (INR (S n))).
  { rewrite <- ln_pow10, <- pow_INR10. destruct (Nat.eq_dec (10 ^ k) (S n)) as [->|N]; [lra|]. apply Rlt_le, ln_increasing; [apply lt_0_INR; assert (10 ^ k <> 0)%nat by (apply Nat.pow_nonzero; lia); lia|apply lt_INR; lia]. }
  assert (B2 : ln (INR (S n)) < INR (S k) * ln 10).
  { rewrite <- ln_pow10, <- pow_INR10. apply ln_increasing; [exact P|apply lt_INR; exact K2]. }
  assert (E : Int_part (ln (INR (S n)) / ln 10 - 1) = (Z.of_nat k - 1)%Z).
  { apply Int_part_between. rewrite minus_IZR, <- INR_IZR_INZ. rewrite (S_INR k) in B2. split.
    - apply Rplus_le_compat_r. apply (Rmult_le_reg_r (ln 10)); [exact L10|]. replace (ln (INR (S n)) / ln 10 * ln 10) with (ln (INR (S n))) by (field; lra). exact B1.
    - replace (INR k - 1 + 1) with (INR k + 1 - 1) by ring. apply Rplus_lt_compat_r. apply (Rmult_lt_reg_r (ln 10)); [exact L10|]. replace (ln (INR (S n)) / ln 10 * ln 10) with (ln (INR (S n))) by (field; lra). exact B2. }
  rewrite E. destruct k as [|k].
  - cbn [Z.of_nat]. cbn in K1, K2. split; [split; [intros _; lia|intros _; reflexivity]|discriminate].
  - assert (Q : (Z.of_nat (S k) - 1 <? 0)%Z = false) by (apply Z.ltb_ge; lia). rewrite Q.
    assert (Z10 : forall j, Z.of_nat (10 ^ j) = (10 ^ Z.of_nat j)%Z) by (intro j; rewrite Nat2Z.inj_pow; reflexivity).
    split; [split; [discriminate|]|].
    { intro L. exfalso. change (10 ^ S k)%nat with (10 * 10 ^ k)%nat in K1. assert (10 ^ k <> 0)%nat by (apply Nat.pow_nonzero; lia). lia. }
    intros m M. replace (Z.of_nat (S k) - 1)%Z with (Z.of_nat k) in M by lia. assert (M2 : m = (10 ^ Z.of_nat k)%Z) by congruence. clear M. subst m.
    rewrite <- Z10. change (10 ^ S (S k))%nat with (10 * (10 * 10 ^ k))%nat in K2. change (10 ^ S k)%nat with (10 * 10 ^ k)%nat in K1.
    assert (10 ^ k <> 0)%nat by (apply Nat.pow_nonzero; lia). split; [lia|]. split; [lia|]. exists k. apply Z10.
Qed.
Print Assumptions C141_number_of_marks.
Example C141_ex : (markevery 1234 <> None).
Proof. intro H. apply C141_number_of_marks in H. lia. Qed.

(* ================================================================ C142 *)
(** kind='both' draws the simple residuals, and the robust ones when there is a fit result; 'simple' and 'robust' draw
    one curve; a missing fit result is an AttributeError for 'robust'. *)
Theorem C142_curves_drawn : forall (p : ffplot (T := XR)) pct s, ff_residuals p pct false = Ok s ->
  ff_plot_residuals p pct "simple" = Ok [Simple s]
  /\ (forall r, p_fun p = Some r -> exists r', ff_residuals p pct true = Ok r' /\ ff_plot_residuals p pct "robust" = Ok [Robust r'] /\ ff_plot_residuals p pct "both" = Ok [Simple s; Robust r'] /\ (pct = false -> r' = r))
  /\ (p_fun p = None -> ff_plot_residuals p pct "robust" = Err AttributeError /\ ff_plot_residuals p pct "both" = Ok [Simple s]).
Proof.
  intros p pct s H. unfold ff_plot_residuals. cbn [mem_str existsb String.eqb Ascii.eqb eqb orb rmap]. rewrite H. cbn [rmap bind]. split; [reflexivity|]. split.
  - intros r E. eexists. split; [unfold ff_residuals; rewrite E; reflexivity|]. unfold ff_residuals. rewrite E. cbn [bind rmap]. split; [reflexivity|]. split; [reflexivity|]. intros ->. reflexivity.
  - intros E. unfold ff_residuals. rewrite E. cbn [bind rmap]. split; reflexivity.
Qed.
(** A misspelled kind is not refused: nothing is drawn. *)
Theorem C142_unknown_kind_draws_nothing_refuted : forall (p : ffplot (T := XR)) pct kind, ~ In kind ["simple"; "robust"; "both"] -> ff_plot_residuals p pct kind = Ok [].
Proof.
  intros p pct kind N. unfold ff_plot_residuals. destruct (mem_str kind ["simple"; "robust"]) eqn:E; [apply mem_str_In in E; cbn in E, N; exfalso; tauto|].
  destruct (String.eqb kind "both") eqn:E2; [apply String.eqb_eq in E2; cbn in N; exfalso; intuition congruence|reflexivity].
Qed.

(* ================================================================ C143 *)
(** The first call empties the caller's dict of resid_pct, so a second call with the same dict uses the default. *)
Theorem C143_resid_kwargs_are_modified_refuted : forall d, In ("resid_pct", false) d -> (forall b, In ("resid_pct", b) d -> b = false) ->
  let '(first, d1) := pop_resid_pct d in let '(second, _) := pop_resid_pct d1 in first = false /\ second = true /\ d1 <> d.
Proof.
  intros d I U. unfold pop_resid_pct. cbv zeta.
  assert (F : exists b, find (fun e => String.eqb (fst e) "resid_pct") d = Some ("resid_pct", b) /\ b = false).
  { destruct (find (fun e => String.eqb (fst e) "resid_pct") d) as [[k b]|] eqn:E.
    - apply find_some in E as [E1 E2]. cbn [fst] in E2. apply String.eqb_eq in E2. subst k. exists b. split; [reflexivity|apply U, E1].
    - exfalso. pose proof (find_none _ _ E _ I) as Q. cbn in Q. discriminate. }
  destruct F as [b [-> ->]]. split; [reflexivity|].
  assert (G : find (fun e => String.eqb (fst e) "resid_pct") (filter (fun e => negb (String.eqb (fst e) "resid_pct")) d) = None).
  { match goal with |- ?x = None => destruct x as [[k b]|] eqn:E; [exfalso|reflexivity] end. apply find_some in E as [E1 E2]. apply filter_In in E1 as [_ E1]. rewrite E2 in E1. discriminate. }
  rewrite G. split; [reflexivity|]. intro Q. rewrite <- Q in I. apply filter_In in I as [_ I]. cbn in I. discriminate.
Qed.
Example C143_ex : In ("resid_pct", false) [("resid_pct", false)] /\ fst (pop_resid_pct [("resid_pct", false)]) = false.
Proof. split; [left; reflexivity|reflexivity]. Qed.

(* ================================================================ C144 *)
Lemma str_app_assoc (a b c : string) : ((a ++ b) ++ c = a ++ b ++ c)%string.
Proof. induction a as [|x a IH]; cbn; [reflexivity|]. rewrite IH. reflexivity. Qed.
(** kind='both': the caller's label (without dollar signs at its ends) is kept in front of the kind. *)
Theorem C144_both_keeps_the_label : forall label Kind, strip "$" label <> "" ->
  resid_label_both label Kind = ("$\mathrm{" ++ strip "$" label ++ " \; " ++ Kind ++ "}$")%string.
Proof. intros label Kind N. unfold resid_label_both. cbv zeta. rewrite (proj2 (String.eqb_neq _ _) N). reflexivity. Qed.
(** kind='simple' or 'robust' agrees as long as the label starts with neither a blank, a backslash nor a semicolon ... *)
Theorem C144_one_kind_partial : forall label Kind c r, strip "$" label = String c r -> c <> " "%char -> c <> "\"%char -> c <> ";"%char ->
  resid_label_one label Kind = resid_label_both label Kind.
Proof.
  intros label Kind c r E N1 N2 N3. unfold resid_label_one, resid_label_both. cbv zeta. rewrite E. cbn [String.eqb join append].
  assert (HC : has_char c " \; " = false).
  { cbn [has_char]. assert (Q : forall d, c <> d -> Ascii.eqb d c = false /\ Ascii.eqb c d = false) by (intros d N; split; apply Ascii.eqb_neq; congruence).
    destruct (Q _ N1) as [A1 A2], (Q _ N2) as [B1 B2], (Q _ N3) as [C1 C2]. rewrite ?A1, ?A2, ?B1, ?B2, ?C1, ?C2. reflexivity. }
  cbn [lstrip]. rewrite HC. cbn [append]. rewrite str_app_assoc. reflexivity.
Qed.
(** ... and eats the backslash of a TeX command at its start. *)
Theorem C144_one_kind_keeps_the_label_refuted :
  resid_label_one "$\beta$" "Simple" = "$\mathrm{beta \; Simple}$" /\ resid_label_both "$\beta$" "Simple" = "$\mathrm{\beta \; Simple}$".
Proof. split; reflexivity. Qed.
Theorem C144_no_label : forall Kind, resid_label_one "" Kind = ("$\mathrm{ \; " ++ Kind ++ "}$")%string /\ resid_label_both "$$" Kind = resid_label_one "" Kind.
Proof. intro. split; reflexivity. Qed.
Example C144_ex : strip "$" "$Fit$" = "Fit".
Proof. reflexivity. Qed.

(* ================================================================ C145 *)
(** The shaded window at a point is [y - w, y + w]: it is centred on the observation, and contains it for w >= 0; without
    weights it has no width. *)
Theorem C145_window : forall xs ys ws, List.length xs = List.length ys -> List.length ws = List.length ys ->
  ff_window (mkObs (map Fin xs) (map Fin ys) (Some (map Fin ws))) = map2 (fun xy w => (Fin (fst xy), Fin (snd xy - w), Fin (snd xy + w))) (map2 pair xs ys) ws
  /\ ff_window (mkObs (map Fin xs) (map Fin ys) None) = map2 (fun x y => (Fin x, Fin y, Fin y)) xs ys.
Proof.
  intros xs. induction xs as [|x xs IH]; intros [|y ys] [|w ws] H1 H2; try discriminate; [split; reflexivity|].
  destruct (IH ys ws) as [I1 I2]; [now injection H1|now injection H2|]. unfold ff_window in *. cbn [o_w o_x o_y map map2 fst snd] in *. split.
  - rewrite I1, fin_sub, fin_add. reflexivity.
  - rewrite I2, fin_ofZ, fin_sub, fin_add. do 3 f_equal; f_equal; ring.
Qed.
Example C145_ex : ff_window (mkObs [Fin 1] [Fin 5] (Some [Fin 2])) = [(Fin 1, Fin (5 - 2), Fin (5 + 2))].
Proof. exact (proj1 (C145_window [1] [5] [2] eq_refl eq_refl)). Qed.
