(** C230 (residual curves as drawn), C231 (labels and scales of the axes of fit plots). *)
From Coq Require Import List String Bool Arith ZArith Reals Lia Lra.
From Verif Require Import Py PyStr Num FitCore FitCoreThms FitPlot FitPlotThms TrendPlot TrendPlotThms FFDraw FFDrawThms ResidDraw.
Import ListNotations.
Open Scope string_scope.
Open Scope list_scope.

(* ------------------------------------------------------------------ specification *)
(** The options that a residual curve is asked to have: its legend text is made from the label; markevery is about marks. *)
Definition wanted_curve (text : string -> string) (kw : kws) (k v : string) : Prop :=
  k <> "markevery" /\ (k = "label" -> exists l, wants line_alias kw "label" l /\ v = text l) /\ (k <> "label" -> wants line_alias kw k v).
Definition marked_curve {T} (p : ffplot (T := T)) (kw : kws) (m : marks) : Prop :=
  (exists v, wants line_alias kw "markevery" v /\ v <> "None" /\ m = MarksAsked v) \/
  ((forall v, wants line_alias kw "markevery" v -> v = "None") /\ m = MarksEvery (markevery (List.length (o_x (u_used (p_obs p)))))).
Definition curve_defaults (text : string -> string) : kws := [("drawstyle", "steps-mid"); ("markerfacecolor", "none"); ("markersize", "8"); ("label", text "")].

(* ------------------------------------------------------------------ lemmas *)
Lemma relabel_in f st k v : In (k, v) (relabel f st) <->
  k <> "markevery" /\ ((k = "label" /\ exists l, In ("label", l) st /\ v = f l) \/ (k <> "label" /\ In (k, v) st)).
Proof.
  unfold relabel. rewrite in_map_iff. split.
  - intros ([a b] & E & H). apply filter_In in H. destruct H as [H N]. cbn [fst snd] in *. apply negb_true_iff, String.eqb_neq in N.
    destruct (String.eqb a "label") eqn:L.
    + apply String.eqb_eq in L. subst a. assert (k = "label") by congruence. assert (v = f b) by congruence. subst. split; [discriminate|]. left. eauto.
    + apply String.eqb_neq in L. assert (a = k) by congruence. assert (b = v) by congruence. subst. split; [exact N|]. right. auto.
  - intros (N & [(-> & l & H & ->)|(L & H)]).
    + exists ("label", l). split; [reflexivity|]. apply filter_In. split; [exact H|reflexivity].
    + exists (k, v). cbn [fst snd]. split; [rewrite (proj2 (String.eqb_neq k "label") L); reflexivity|]. apply filter_In. split; [exact H|]. cbn. rewrite (proj2 (String.eqb_neq k "markevery") N). reflexivity.
Qed.
Lemma relabel_keys f st : map fst (relabel f st) = filter (fun k => negb (String.eqb k "markevery")) (map fst st).
Proof.
  unfold relabel. induction st as [|[a b] st IH]; [reflexivity|]. cbn [filter map fst]. destruct (negb (String.eqb a "markevery")); [|exact IH].
  cbn [map fst snd]. rewrite IH. destruct (String.eqb a "label") eqn:L; [apply String.eqb_eq in L; subst a|]; reflexivity.
Qed.
Lemma relabel_styled f ds w st : NoDup (map fst ds) -> styled ds w st ->
  styled (relabel f ds) (fun k v => k <> "markevery" /\ (k = "label" -> exists l, w "label" l /\ v = f l) /\ (k <> "label" -> w k v)) (relabel f st).
Proof.
  intros ND (A & B & C & D). split; [rewrite relabel_keys; apply NoDup_filter, A|]. split; [|split].
  - intros k v (N & L & O). apply relabel_in. split; [exact N|]. destruct (String.string_dec k "label") as [->|K].
    + left. split; [reflexivity|]. destruct (L eq_refl) as (l & Wl & ->). exists l. split; [apply B, Wl|reflexivity].
    + right. split; [exact K|]. apply B, O, K.
  - intros k v H. apply relabel_in in H. destruct H as (N & [(-> & l & H & ->)|(K & H)]).
    + destruct (C "label" l H) as [X|[X Y]].
      * left. split; [exact N|]. split; [intros _; eauto|congruence].
      * right. split.
        -- intros v' (_ & L & _). destruct (L eq_refl) as (l' & Wl & _). exact (X l' Wl).
        -- apply relabel_in. split; [exact N|]. left. eauto.
    + destruct (C k v H) as [X|[X Y]].
      * left. split; [exact N|]. split; [congruence|auto].
      * right. split; [intros v' (_ & _ & O); exact (X v' (O K))|]. apply relabel_in. split; [exact N|]. right. auto.
  - intros k d H. apply relabel_in in H. destruct H as (N & [(-> & l & H & ->)|(K & H)]).
    + destruct (D "label" l H) as (x & X). exists (f x). apply relabel_in. split; [exact N|]. left. eauto.
    + destruct (D k d H) as (x & X). exists x. apply relabel_in. split; [exact N|]. right. auto.
Qed.
Lemma pops_app a b kw : pops (a ++ b) kw = (let '(o1, r1) := pops a kw in let '(o2, r2) := pops b r1 in (o1 ++ o2, r2)).
Proof.
  revert kw. induction a as [|[k d] a IH]; intro kw; cbn [app pops].
  - destruct (pops b kw). reflexivity.
  - destruct (pop k d kw) as [v kw1]. rewrite IH. destruct (pops a kw1) as [o1 r1]. destruct (pops b r1) as [o2 r2]. reflexivity.
Qed.
Lemma fixed_styled (fixed ds : kws) w st : NoDup (map fst fixed) -> (forall k v, In k (map fst fixed) -> ~ w k v) -> (forall k, In k (map fst fixed) -> ~ In k (map fst ds)) ->
  styled ds w st -> styled (fixed ++ ds) w (fixed ++ st).
Proof.
  intros NF NW ND (A & B & C & D).
  assert (NS : forall k, In k (map fst fixed) -> ~ In k (map fst st)).
  { intros k Hk X. apply in_map_iff in X. destruct X as ([a v] & E & X). cbn in E. subst a. destruct (C k v X) as [Y|[_ Y]]; [exact (NW k v Hk Y)|]. apply (ND k Hk). exact (in_map fst _ _ Y). }
  split; [|split; [|split]].
  - rewrite map_app. clear - NF A NS. induction fixed as [|[k v] fixed IH]; [exact A|]. cbn in *. inversion NF as [|? ? N1 N2]; subst. constructor; [|apply IH; [exact N2|intros k' Hk'; apply NS; right; exact Hk']].
    intro X. apply in_app_or in X. destruct X as [X|X]; [exact (N1 X)|exact (NS k (or_introl eq_refl) X)].
  - intros k v H. apply in_or_app. right. apply B, H.
  - intros k v H. apply in_app_or in H. destruct H as [H|H].
    + right. split; [intros v' X; exact (NW k v' (in_map fst _ _ H) X)|]. apply in_or_app. left. exact H.
    + destruct (C k v H) as [X|[X Y]]; [left; exact X|right]. split; [exact X|]. apply in_or_app. right. exact Y.
  - intros k d H. apply in_app_or in H. destruct H as [H|H].
    + exists d. apply in_or_app. left. exact H.
    + destruct (D k d H) as (v & X). exists v. apply in_or_app. right. exact X.
Qed.
Lemma resid_nodup : NoDup (map fst resid_look). Proof. cbn. repeat constructor; cbn; intuition discriminate. Qed.
Lemma resid_single_nodup : NoDup (map fst (resid_look ++ single_look)). Proof. cbn. repeat constructor; cbn; intuition discriminate. Qed.
Lemma marks_ok {T} (p : ffplot (T := T)) kw nk own rest : NoDup (map fst nk) -> (forall k v, In (k, v) nk <-> wants line_alias kw k v) -> pops resid_look nk = (own, rest) ->
  marked_curve p kw (if String.eqb (get "markevery" own) "None" then MarksEvery (markevery (List.length (o_x (u_used (p_obs p))))) else MarksAsked (get "markevery" own)).
Proof.
  intros ND W EP. destruct (pops_styled resid_look nk own rest resid_nodup ND EP) as (K & (S1 & S2 & S3 & S4) & _ & _).
  assert (MI : In ("markevery", "None") resid_look) by (cbn; auto 10). destruct (S4 _ _ MI) as (v & V).
  assert (KI : In "markevery" (map fst own)) by (rewrite K; cbn; auto 10).
  pose proof (in_app_key _ v own rest KI S1 V) as V'. assert (G : get "markevery" own = v) by (apply get_is; [rewrite K; exact resid_nodup|exact V']). rewrite G.
  unfold marked_curve. destruct (S3 _ v V) as [X|[X Y]].
  - apply W in X. destruct (String.eqb v "None") eqn:E.
    + right. apply String.eqb_eq in E. split; [|reflexivity]. intros v' X'. subst v.
      apply W in X, X'. assert (U : forall (l : kws), NoDup (map fst l) -> In ("markevery", get "markevery" own) l -> In ("markevery", v') l -> v' = get "markevery" own).
      { intros l N I1 I2. rewrite <- (get_is "markevery" v' l N I2). rewrite (get_is "markevery" _ l N I1). reflexivity. }
      rewrite <- E. apply (U nk ND X X').
    + left. exists v. split; [exact X|]. split; [apply String.eqb_neq, E|reflexivity].
  - assert (v = "None"). { cbn in Y. destruct Y as [Y|[Y|[Y|[Y|[Y|[]]]]]]; congruence. }
    subst v. rewrite H. right. split; [|reflexivity]. intros v' X'. exfalso. apply (X v'), W, X'.
Qed.

(* ================================================================ C230 *)
(** One kind: the residuals against the used abscissae, in the style asked for over the defaults; legend text as in C144; marks as asked
    for or as C141 says. *)
Theorem C230_one_kind : forall (T : Type) (A : Arith T) title (p : ffplot (T := T)) pct kind kw r,
  kind = "simple" \/ kind = "robust" -> wants_once line_alias kw -> ff_residuals p pct (String.eqb kind "robust") = Ok r ->
  exists st m, draw_residuals title p pct kind kw = Ok [Curve (o_x (u_used (p_obs p))) r st m] /\
    styled (curve_defaults (fun l => resid_label_one l (title kind)) ++ [("color", "forestgreen"); ("marker", "P"); ("linestyle", "-")])
      (wanted_curve (fun l => resid_label_one l (title kind)) kw) st /\ marked_curve p kw m.
Proof.
  intros T A title p pct kind kw r K O ER. unfold draw_residuals. destruct (norm_wants line_alias kw O) as (nk & EN & ND & W). rewrite EN. cbn [bind].
  destruct (pops resid_look nk) as [own rest] eqn:EP.
  assert (KM : mem_str kind ["simple"; "robust"] = true) by (destruct K as [-> | ->]; reflexivity). rewrite KM, ER. cbn [bind].
  destruct (pops single_look rest) as [own' rest'] eqn:EP'. eexists _, _. split; [reflexivity|]. split; [|apply (marks_ok p kw nk own rest ND W EP)].
  assert (EA : pops (resid_look ++ single_look) nk = (own ++ own', rest')) by (rewrite pops_app, EP, EP'; reflexivity).
  destruct (pops_styled _ nk _ _ resid_single_nodup ND EA) as (_ & ST & _ & _). rewrite <- app_assoc in ST.
  pose proof (relabel_styled (fun l => resid_label_one l (title kind)) _ _ _ resid_single_nodup ST) as RS.
  revert RS. apply styled_iff. intros k v. unfold wanted_curve. split; intros (N & L & M); (split; [exact N|]); split;
    try (intros E; destruct (L E) as (l & X & Y); exists l; split; [apply W, X|exact Y]); intros E; apply W, M, E.
Qed.
Print Assumptions C230_one_kind.
(** Both kinds, if no colour, marker or line style is asked for: green and orange, otherwise alike; without robust residuals the simple ones only. *)
Theorem C230_both_kinds_partial : forall (T : Type) (A : Arith T) title (p : ffplot (T := T)) pct kw r,
  wants_once line_alias kw -> (forall k v, In k ["color"; "marker"; "linestyle"] -> ~ wants line_alias kw k v) -> ff_residuals p pct false = Ok r ->
  exists st st' m, draw_residuals title p pct "both" kw =
      match ff_residuals p pct true with
      | Ok r' => Ok [Curve (o_x (u_used (p_obs p))) r st m; Curve (o_x (u_used (p_obs p))) r' st' m]
      | Err AttributeError => Ok [Curve (o_x (u_used (p_obs p))) r st m]
      | Err e => Err e
      end /\
    styled ([("color", "forestgreen"); ("marker", "P"); ("linestyle", "-")] ++ curve_defaults (fun l => resid_label_both l "Simple")) (wanted_curve (fun l => resid_label_both l "Simple") kw) st /\
    styled ([("color", "darkorange"); ("marker", "X"); ("linestyle", "-")] ++ curve_defaults (fun l => resid_label_both l "Robust")) (wanted_curve (fun l => resid_label_both l "Robust") kw) st' /\
    marked_curve p kw m.
Proof.
  intros T A title p pct kw r O NO ER. unfold draw_residuals. destruct (norm_wants line_alias kw O) as (nk & EN & ND & W). rewrite EN. cbn [bind].
  destruct (pops resid_look nk) as [own rest] eqn:EP. change (mem_str "both" ["simple"; "robust"]) with false. change (String.eqb "both" "both") with true. rewrite ER. cbn [bind].
  destruct (pops_styled _ nk own rest resid_nodup ND EP) as (_ & ST & _ & _).
  assert (RS : forall f, styled (relabel f resid_look) (wanted_curve f kw) (relabel f (own ++ rest))).
  { intro f. pose proof (relabel_styled f _ _ _ resid_nodup ST) as RS. revert RS. apply styled_iff. intros k v. unfold wanted_curve. split; intros (N & L & M); (split; [exact N|]); split;
      try (intros E; destruct (L E) as (l & X & Y); exists l; split; [apply W, X|exact Y]); intros E; apply W, M, E. }
  assert (CW : forall f (fixed : kws), map fst fixed = ["color"; "marker"; "linestyle"] ->
    call_with fixed (relabel f (own ++ rest)) = Ok (fixed ++ relabel f (own ++ rest)) /\ styled (fixed ++ relabel f resid_look) (wanted_curve f kw) (fixed ++ relabel f (own ++ rest))).
  { intros f fixed EF. assert (WN : forall k v, In k (map fst fixed) -> ~ wanted_curve f kw k v).
    { intros k v Hk (_ & _ & X). rewrite EF in Hk. apply (NO k v Hk). apply X. cbn in Hk. intros ->. intuition discriminate. }
    assert (DN : forall k, In k (map fst fixed) -> ~ In k (map fst (relabel f resid_look))).
    { intros k Hk. rewrite EF in Hk. rewrite relabel_keys. cbn in *. intuition congruence. }
    split.
    - apply call_ok. intros k v Hk X. destruct (RS f) as (_ & _ & C & _). destruct (C k v Hk) as [Y|[_ Y]]; [exact (WN k v X Y)|]. apply (DN k X). exact (in_map fst _ _ Y).
    - apply fixed_styled; [rewrite EF; repeat constructor; cbn; intuition discriminate|exact WN|exact DN|apply RS]. }
  destruct (CW (fun l => resid_label_both l "Simple") simple_look eq_refl) as (C1 & S1). destruct (CW (fun l => resid_label_both l "Robust") robust_look eq_refl) as (C2 & S2).
  rewrite C1, C2. cbn [bind]. eexists _, _, _. split; [reflexivity|]. split; [exact S1|]. split; [exact S2|]. apply (marks_ok p kw nk own rest ND W EP).
Qed.
Print Assumptions C230_both_kinds_partial.
(** But with both kinds (the default) any colour, marker or line style asked for is refused. *)
Theorem C230_both_kinds_own_style_refuted : forall (T : Type) (A : Arith T) title (p : ffplot (T := T)) pct kw r k v,
  wants_once line_alias kw -> In k ["color"; "marker"; "linestyle"] -> wants line_alias kw k v -> ff_residuals p pct false = Ok r ->
  draw_residuals title p pct "both" kw = Err TypeError.
Proof.
  intros T A title p pct kw r k v O K WK ER. unfold draw_residuals. destruct (norm_wants line_alias kw O) as (nk & EN & ND & W). rewrite EN. cbn [bind].
  destruct (pops resid_look nk) as [own rest] eqn:EP. change (mem_str "both" ["simple"; "robust"]) with false. change (String.eqb "both" "both") with true. rewrite ER. cbn [bind].
  destruct (pops_styled _ nk own rest resid_nodup ND EP) as (_ & ST & _ & _). destruct ST as (_ & B & _ & _).
  unfold call_with. match goal with |- context[existsb ?f ?l] => assert (E : existsb f l = true) end.
  { apply existsb_exists. exists (k, v). split; [|apply mem_str_In; exact K]. apply relabel_in. split; [cbn in K; intros ->; intuition discriminate|]. right.
    split; [cbn in K; intros ->; intuition discriminate|]. apply B, W, WK. }
  rewrite E. reflexivity.
Qed.
Print Assumptions C230_both_kinds_own_style_refuted.
(** An unknown kind draws nothing, without an error. *)
Theorem C230_unknown_kind : forall (T : Type) (A : Arith T) title (p : ffplot (T := T)) pct kind kw, wants_once line_alias kw -> ~ In kind ["simple"; "robust"; "both"] ->
  draw_residuals title p pct kind kw = Ok [].
Proof.
  intros T A title p pct kind kw O N. unfold draw_residuals. destruct (norm_wants line_alias kw O) as (nk & EN & _). rewrite EN. cbn [bind]. destruct (pops resid_look nk) as [own rest].
  assert (M : mem_str kind ["simple"; "robust"] = false). { apply not_true_iff_false. intro X. apply mem_str_In in X. apply N. cbn in *. intuition. }
  assert (E : String.eqb kind "both" = false). { apply String.eqb_neq. intro X. apply N. cbn. auto. }
  rewrite M, E. reflexivity.
Qed.
Print Assumptions C230_unknown_kind.
(** The curves are those of C139-C144. *)
Theorem C230_same_residuals : forall (T : Type) (A : Arith T) title (p : ffplot (T := T)) pct kind kw l, draw_residuals title p pct kind kw = Ok l ->
  exists cs, ff_plot_residuals p pct kind = Ok cs /\ List.length cs = List.length l /\
    forall n c, nth_error cs n = Some c -> exists st m, nth_error l n = Some (Curve (o_x (u_used (p_obs p))) (match c with Simple r => r | Robust r => r end) st m).
Proof.
  intros T A title p pct kind kw l. unfold draw_residuals, ff_plot_residuals. destruct (norm line_alias kw []) as [nk|]; cbn [bind]; [|discriminate].
  destruct (pops resid_look nk) as [own rest]. destruct (mem_str kind ["simple"; "robust"]).
  - destruct (ff_residuals p pct (String.eqb kind "robust")) as [r|]; cbn [bind rmap]; [|discriminate]. destruct (pops single_look rest) as [own' rest'].
    intros E. eexists. split; [reflexivity|]. match type of E with Ok ?x = Ok _ => assert (l = x) by congruence end. subst l. split; [reflexivity|].
    intros [|[|n]] c H; cbn in H; try discriminate H. destruct (String.eqb kind "robust"); (assert (c = Robust r \/ c = Simple r) as [-> | ->] by (cbn in H; injection H; auto)); eexists _, _; reflexivity.
  - destruct (String.eqb kind "both").
    + destruct (ff_residuals p pct false) as [r|]; cbn [bind]; [|discriminate]. destruct (call_with simple_look _) as [st|]; cbn [bind]; [|discriminate].
      destruct (ff_residuals p pct true) as [r'|e].
      * destruct (call_with robust_look _) as [st'|]; cbn [bind]; [|discriminate]. intros E. eexists. split; [reflexivity|].
        match type of E with Ok ?x = Ok _ => assert (l = x) by congruence end. subst l. split; [reflexivity|].
        intros [|[|[|n]]] c H; cbn in H; try discriminate H; injection H as <-; eexists _, _; reflexivity.
      * destruct e; try discriminate. intros E. eexists. split; [reflexivity|]. match type of E with Ok ?x = Ok _ => assert (l = x) by congruence end. subst l. split; [reflexivity|].
        intros [|[|n]] c H; cbn in H; try discriminate H. injection H as <-. eexists _, _. reflexivity.
    + intros E. exists []. split; [reflexivity|]. assert (l = []) by congruence. subst l. split; [reflexivity|]. intros [|n] c H; discriminate H.
Qed.
Print Assumptions C230_same_residuals.

(* ================================================================ C231 *)
(** After a plot the axes carry the fit's labels; on axes that were linear, a scale is logarithmic exactly if the fit's is. *)
Theorem C231_labels_and_scales : forall k a x, k = PlotRaw \/ k = PlotUsed \/ k = PlotFit \/ k = PlotRawUsedFit ->
  let r := format_plot k a x in
  ac_xlabel r = ax_x a /\ ac_ylabel r = ax_y a /\ ac_ylim r = ac_ylim x /\
  (ac_xscale x = Linear -> (ac_xscale r = Log <-> ax_logx a = true) /\ (ax_logx a = false -> ac_xscale r = Linear)) /\
  (ac_yscale x = Linear -> (ac_yscale r = Log <-> ax_logy a = true) /\ (ax_logy a = false -> ac_yscale r = Linear)).
Proof.
  intros k a x K. assert (E : format_plot k a x = format_hax a x) by (destruct K as [->|[->|[->| ->]]]; reflexivity). cbv zeta. rewrite E. unfold format_hax. cbn.
  repeat split; try (intros ->); destruct (ax_logx a), (ax_logy a); congruence.
Qed.
Print Assumptions C231_labels_and_scales.
(** Residuals in per cent are shown from -100 to 100 on a scale that is linear up to 10; other residuals keep the axis as it was; the abscissa
    is the fit's. *)
Theorem C231_residual_axes : forall a pct x, let r := format_plot (PlotResiduals pct) a x in
  ac_xlabel r = ax_x a /\ (ac_xscale x = Linear -> (ac_xscale r = Log <-> ax_logx a = true)) /\
  (pct = true -> ac_yscale r = SymLog 10 /\ ac_ylim r = Some (-100, 100)%Z /\ ac_ylabel r = LPlain "$\mathrm{Residual} \; [\%]$") /\
  (pct = false -> ac_yscale r = ac_yscale x /\ ac_ylim r = ac_ylim x /\ ac_ylabel r = LPlain "$\mathrm{Residual} \; [\#]$").
Proof. intros a pct x. cbn. repeat split; intros; subst; try congruence; destruct (ax_logx a); congruence. Qed.
Print Assumptions C231_residual_axes.
(** Plotting again on the same axes cannot take a logarithmic scale back: with set_log(x=False) or (y=False) in between it stays. *)
Theorem C231_back_to_linear_refuted : forall k k' a x lx ly, k = PlotRaw \/ k = PlotUsed \/ k = PlotFit \/ k = PlotRawUsedFit ->
  k' = PlotRaw \/ k' = PlotUsed \/ k' = PlotFit \/ k' = PlotRawUsedFit ->
  let a' := mkAxes (ax_x a) (ax_y a) (ax_z a) lx ly in
  (ax_logx a = true -> ac_xscale (format_plot k' a' (format_plot k a x)) = Log) /\ (ax_logy a = true -> ac_yscale (format_plot k' a' (format_plot k a x)) = Log).
Proof.
  intros k k' a x lx ly K K'. assert (E : forall a x, format_plot k a x = format_hax a x) by (intros; destruct K as [->|[->|[->| ->]]]; reflexivity).
  assert (E' : forall a x, format_plot k' a x = format_hax a x) by (intros; destruct K' as [->|[->|[->| ->]]]; reflexivity). cbv zeta. rewrite E, E'. unfold format_hax. cbn.
  split; intros ->; [destruct lx|destruct ly]; reflexivity.
Qed.
Print Assumptions C231_back_to_linear_refuted.
Example C231_ex : let a := mkAxes (LPlain "x") (LPlain "y") None false true in
  format_plot PlotFit a (mkAx (LPlain "") (LPlain "") Linear Linear None) = mkAx (LPlain "x") (LPlain "y") Linear Log None.
Proof. reflexivity. Qed.
Definition ex_plot : ffplot (T := XR) := mkPlot (mkUsedRaw (mkObs [Fin 1] [Fin 3] None) (mkObs [Fin 1] [Fin 3] None) [true]) [Fin 4] None.
Example C230_ex : wants_once line_alias [("c", "red"); ("label", "Fit")] /\
  exists r st m, ff_residuals ex_plot false false = Ok r /\ draw_residuals (fun k => "Simple") ex_plot false "simple" [("c", "red"); ("label", "Fit")] = Ok [Curve [Fin 1] r st m] /\
    In ("color", "red") st /\ In ("label", "$\mathrm{Fit \; Simple}$") st.
Proof. split; [repeat constructor; cbn; intuition discriminate|]. eexists _, _, _. split; [reflexivity|]. split; [reflexivity|]. vm_compute. auto 10. Qed.
Example C230_refuted_ex : draw_residuals (fun k => k) ex_plot false "both" [("c", "red")] = Err TypeError.
Proof. apply (C230_both_kinds_own_style_refuted XR _ _ ex_plot false [("c", "red")] (match ff_residuals ex_plot false false with Ok r => r | Err _ => [] end) "color" "red"); [repeat constructor; intros []|left; reflexivity|exists "c"; split; [left; reflexivity|reflexivity]|reflexivity]. Qed.
