(** C225 (observations as drawn), C226 (the fitted curve as drawn), C227 (all three together), C228 (the annotation). *)
From Coq Require Import List String Bool Arith ZArith Reals Lia Lra.
From Verif Require Import Py PyStr Num FitCore FitCoreThms FitPlot FitPlotThms TrendPlot TrendPlotThms FFDraw.
Import ListNotations.
Open Scope string_scope.
Open Scope list_scope.

(* ------------------------------------------------------------------ specification *)
(** an option asked for, under one of its names; no option is asked for twice *)
Definition wants (alias : string -> string) (kw : kws) (k v : string) : Prop := exists a, In (a, v) kw /\ alias a = k.
Definition wants_once (alias : string -> string) (kw : kws) : Prop := NoDup (map (fun e => alias (fst e)) kw).
(** The style has every option that is asked for, and otherwise the defaults; nothing else, and nothing twice. *)
Definition styled (defaults : kws) (wanted : string -> string -> Prop) (st : kws) : Prop :=
  NoDup (map fst st) /\ (forall k v, wanted k v -> In (k, v) st) /\
  (forall k v, In (k, v) st -> wanted k v \/ (forall v', ~ wanted k v') /\ In (k, v) defaults) /\
  (forall k d, In (k, d) defaults -> exists v, In (k, v) st).

(* ------------------------------------------------------------------ lemmas *)
Lemma norm_gen alias kw seen : NoDup (map fst seen ++ map (fun e => alias (fst e)) kw) ->
  norm alias kw seen = Ok (seen ++ map (fun e => (alias (fst e), snd e)) kw).
Proof.
  revert seen. induction kw as [|[k v] kw IH]; intros seen ND; cbn; [rewrite app_nil_r; reflexivity|].
  cbn in ND. assert (M : mem_str (alias k) (map fst seen) = false).
  { destruct (mem_str (alias k) (map fst seen)) eqn:E; [|reflexivity]. apply mem_str_In in E. apply NoDup_remove_2 in ND. exfalso. apply ND. apply in_or_app. left. exact E. }
  rewrite M, IH; [rewrite <- app_assoc; reflexivity|]. rewrite map_app, <- app_assoc. exact ND.
Qed.
Lemma norm_wants alias kw : wants_once alias kw -> exists nk, norm alias kw [] = Ok nk /\ NoDup (map fst nk) /\ forall k v, In (k, v) nk <-> wants alias kw k v.
Proof.
  intros H. exists (map (fun e => (alias (fst e), snd e)) kw). split; [apply norm_gen; exact H|]. split; [rewrite map_map; exact H|].
  intros k v. rewrite in_map_iff. unfold wants. split.
  - intros ([a b] & E & Hin). cbn in E. exists a. split; [congruence|congruence].
  - intros (a & Hin & E). exists (a, v). cbn. split; [congruence|exact Hin].
Qed.
Lemma norm_twice alias kw seen : NoDup (map fst seen) -> ~ NoDup (map fst seen ++ map (fun e => alias (fst e)) kw) -> norm alias kw seen = Err TypeError.
Proof.
  revert seen. induction kw as [|[k v] kw IH]; intros seen NS ND; cbn in *; [rewrite app_nil_r in ND; contradiction|].
  destruct (mem_str (alias k) (map fst seen)) eqn:E; [reflexivity|]. apply IH.
  - rewrite map_app. cbn. apply NoDup_rev in NS. rewrite <- (rev_involutive (map fst seen ++ [alias k])). apply NoDup_rev. rewrite rev_app_distr. cbn. constructor; [|exact NS].
    rewrite <- in_rev. intros X. apply mem_str_In in X. congruence.
  - rewrite map_app, <- app_assoc. exact ND.
Qed.
Lemma in_or_not k (kw : kws) : (exists v, In (k, v) kw) \/ (forall v, ~ In (k, v) kw).
Proof.
  destruct (in_dec String.string_dec k (map fst kw)) as [H|H].
  - left. apply in_map_iff in H. destruct H as ([a b] & E & H). cbn in E. subst. eauto.
  - right. intros v Hv. apply H. exact (in_map fst _ _ Hv).
Qed.
Lemma keys_absent k (kw : kws) : (forall v, ~ In (k, v) kw) -> ~ In k (map fst kw).
Proof. intros H X. apply in_map_iff in X. destruct X as ([a b] & E & X). cbn in E. subst. exact (H b X). Qed.
Lemma pops_styled ds : forall kw own rest, NoDup (map fst ds) -> NoDup (map fst kw) -> pops ds kw = (own, rest) ->
  map fst own = map fst ds /\ styled ds (fun k v => In (k, v) kw) (own ++ rest) /\ (forall e, In e rest <-> In e kw /\ ~ In (fst e) (map fst ds)) /\ NoDup (map fst rest).
Proof.
  induction ds as [|[k d] ds IH]; intros kw own rest ND NK E; cbn [pops] in E.
  - assert (own = []) by congruence. assert (rest = kw) by congruence. subst. split; [reflexivity|]. split; [|split; [cbn; tauto|exact NK]].
    split; [exact NK|]. split; [intros k v H; exact H|]. split; [intros k v H; left; exact H|]. intros k d [].
  - destruct (pop k d kw) as [v kw1] eqn:EP. destruct (pops ds kw1) as [own' rest'] eqn:EQ.
    assert (own = (k, v) :: own') by congruence. assert (rest = rest') by congruence. subst own rest. clear E.
    destruct (pop_find k d kw NK) as (P1 & P2 & P3 & P4). rewrite EP in *. cbn [fst snd] in *.
    cbn [map fst] in ND. inversion ND as [|? ? NI ND']; subst.
    destruct (IH kw1 own' rest' ND' P4 EQ) as (I1 & (S1 & S2 & S3 & S4) & I3 & I4).
    assert (NH : forall x, ~ In (k, x) (own' ++ rest')).
    { intros x H. destruct (S3 k x H) as [H1|[_ H1]]; [apply P3 in H1; cbn in H1; tauto|apply NI; exact (in_map fst _ _ H1)]. }
    split; [cbn; f_equal; exact I1|]. split; [split; [|split; [|split]]|split; [|exact I4]].
    + cbn [app map fst]. constructor; [apply keys_absent; exact NH|exact S1].
    + intros k0 v0 H. destruct (String.string_dec k0 k) as [->|N]; [left; rewrite (P1 v0 H); reflexivity|]. right. apply S2. apply P3. cbn. tauto.
    + intros k0 v0 [H|H].
      * assert (k0 = k) by congruence. assert (v0 = v) by congruence. subst. destruct (in_or_not k kw) as [[v' Hv]|NV].
        -- left. rewrite (P1 v' Hv). exact Hv.
        -- right. split; [exact NV|]. left. rewrite (P2 NV). reflexivity.
      * destruct (S3 k0 v0 H) as [H1|[H1 H2]]; [left; apply P3 in H1; apply H1|]. right. split; [|right; exact H2].
        intros v' Hv. apply (H1 v'). apply P3. split; [exact Hv|]. cbn. intros ->. apply NI. exact (in_map fst _ _ H2).
    + intros k0 d0 [H|H]; [assert (k0 = k) by congruence; subst; exists v; left; reflexivity|]. destruct (S4 k0 d0 H) as (x & X). exists x. right. exact X.
    + intros e. rewrite I3, P3. cbn [map fst In]. split; [intros ((H1 & H2) & H3); split; [exact H1|]; intros [X|X]; [congruence|contradiction]|].
      intros (H1 & H2). split; [split; [exact H1|]|]; intro X; apply H2; [left; congruence|right; exact X].
Qed.
Lemma styled_iff ds (w w' : string -> string -> Prop) st : (forall k v, w k v <-> w' k v) -> styled ds w st -> styled ds w' st.
Proof.
  intros H (A & B & C & D). split; [exact A|]. split; [intros k v X; apply B, H, X|]. split; [|exact D].
  intros k v X. destruct (C k v X) as [Y|[Y Z]]; [left; apply H, Y|right; split; [|exact Z]]. intros v' V. apply (Y v'), H, V.
Qed.
Lemma get_is k v (own : kws) : NoDup (map fst own) -> In (k, v) own -> get k own = v.
Proof. intros N H. unfold get. apply (pop_find k "" own N). exact H. Qed.
Lemma in_app_key k v (own rest : kws) : In k (map fst own) -> NoDup (map fst (own ++ rest)) -> In (k, v) (own ++ rest) -> In (k, v) own.
Proof.
  intros H N I. apply in_app_or in I. destruct I as [I|I]; [exact I|]. exfalso. rewrite map_app in N. clear - H N I.
  assert (K : In k (map fst rest)) by exact (in_map fst _ _ I). induction own as [|a own IH]; [destruct H|]. cbn in *. inversion N as [|? ? N1 N2]; subst. destruct H as [E|H]; [apply N1, in_or_app; right; rewrite E; exact K|exact (IH H N2)].
Qed.
Lemma look_nodup (used : bool) : NoDup (map fst (if used then used_look else raw_look)).
Proof. destruct used; cbn; repeat constructor; cbn; intuition discriminate. Qed.

(** the options of a set of observations; a [markevery] for the used ones is about marks *)
Definition look (used : bool) : kws :=
  if used then [("color", "forestgreen"); ("marker", "P"); ("markerfacecolor", "none"); ("markersize", "8"); ("label", "$\mathrm{Used}$")]
  else [("color", "k"); ("label", "$\mathrm{Obs}$")].
Definition fit_defaults : kws := [("color", "darkorange"); ("label", "$\mathrm{Fit}$"); ("linestyle", "(0, (7, 3, 1, 3, 1, 3, 1, 3))")].
Definition wanted_of (used : bool) (q : ff_opts) (k v : string) : Prop := wants line_alias (q_kw q) k v /\ (used = true -> k <> "markevery").
Definition plot_of {T} {A : Arith T} (used : bool) : ffplot -> ff_opts -> result (list (piece (T := T))) := if used then plot_used else plot_raw.
Definition obs_of {T} (used : bool) (p : ffplot (T := T)) : obs (T := T) := if used then u_used (p_obs p) else u_raw (p_obs p).
(** marks: all raw points; the used ones as asked for, or as many as C141 says *)
Definition marked {T} (used : bool) (p : ffplot (T := T)) (q : ff_opts) (m : marks) : Prop :=
  if used then
    (exists v, wants line_alias (q_kw q) "markevery" v /\ v <> "None" /\ m = MarksAsked v) \/
    ((forall v, wants line_alias (q_kw q) "markevery" v -> v = "None") /\ m = MarksEvery (markevery (List.length (o_x (u_used (p_obs p))))))
  else m = MarksAll.

Lemma drawn_start {T} {A : Arith T} used (p : ffplot (T := T)) q : wants_once line_alias (q_kw q) ->
  exists own rest m, plot_of used p q = draw_obs own rest m q (obs_of used p) /\ styled (look used) (wanted_of used q) (own ++ rest) /\
    NoDup (map fst own) /\ In "color" (map fst own) /\ marked used p q m.
Proof.
  intros O. destruct (norm_wants _ _ O) as (nk & EN & ND & W). unfold plot_of, plot_used, plot_raw, obs_of, look, wanted_of, marked.
  destruct used; rewrite EN; cbn [bind].
  - destruct (pops used_look nk) as [own rest] eqn:EP. destruct (pops_styled used_look nk own rest (look_nodup true) ND EP) as (K & ST & R & NR).
    destruct (pop "markevery" "None" rest) as [me rest'] eqn:EM. destruct (pop_find "markevery" "None" rest NR) as (P1 & P2 & P3 & P4). rewrite EM in *. cbn [fst snd] in *.
    exists own, rest', (if String.eqb me "None" then MarksEvery (markevery (List.length (o_x (u_used (p_obs p))))) else MarksAsked me).
    split; [reflexivity|]. destruct ST as (S1 & S2 & S3 & S4). rewrite map_app in S1.
    assert (ME : forall v, In ("markevery", v) rest <-> wants line_alias (q_kw q) "markevery" v).
    { intro v. rewrite R, W. cbn. intuition discriminate. }
    assert (OWN : forall e, In e own -> fst e <> "markevery").
    { intros e I E. assert (X : In (fst e) (map fst own)) by (apply in_map, I). rewrite K, E in X. cbn in X. intuition discriminate. }
    split; [split; [|split; [|split]]|split; [|split]].
    + rewrite map_app. clear - S1 P3 P4. revert S1. induction own as [|e own IH]; intro S1; [exact P4|]. cbn in *. inversion S1 as [|? ? N1 N2]; subst. constructor; [|apply IH, N2].
      intro X. apply N1. apply in_app_or in X. apply in_or_app. destruct X as [X|X]; [left; exact X|right]. apply in_map_iff in X. destruct X as (y & <- & Y). apply P3 in Y. apply in_map, Y.
    + intros k v (H & N). specialize (S2 k v (proj2 (W k v) H)). apply in_app_or in S2. apply in_or_app. destruct S2 as [X|X]; [left; exact X|right]. apply P3. split; [exact X|exact (N eq_refl)].
    + intros k v H. assert (NM : k <> "markevery").
      { apply in_app_or in H. destruct H as [H|H]; [exact (OWN _ H)|apply P3 in H; apply H]. }
      assert (H' : In (k, v) (own ++ rest)) by (apply in_or_app; apply in_app_or in H; destruct H as [H|H]; [left; exact H|right; apply P3 in H; apply H]).
      destruct (S3 k v H') as [X|[X Y]]; [left; split; [apply W, X|intros _; exact NM]|right]. split; [|exact Y]. intros v' (V & _). apply (X v'), W, V.
    + intros k d H. destruct (S4 k d H) as (v & X). exists v. apply in_or_app. left. apply (in_app_key k v own rest); [rewrite K; exact (in_map fst _ _ H)|rewrite map_app; exact S1|exact X].
    + rewrite K. exact (look_nodup true).
    + rewrite K. cbn. auto.
    + destruct (in_or_not "markevery" rest) as [[v Hv]|N].
      * rewrite (P1 v Hv). destruct (String.eqb v "None") eqn:E.
        -- right. apply String.eqb_eq in E. split; [|reflexivity]. intros v' V. apply ME in V. rewrite <- (P1 v' V). rewrite (P1 v Hv). exact E.
        -- left. exists v. split; [apply ME, Hv|]. split; [apply String.eqb_neq, E|reflexivity].
      * rewrite (P2 N). right. split; [|reflexivity]. intros v V. exfalso. apply (N v), ME, V.
  - destruct (pops raw_look nk) as [own rest] eqn:EP. destruct (pops_styled raw_look nk own rest (look_nodup false) ND EP) as (K & ST & _ & _).
    exists own, rest, MarksAll. split; [reflexivity|]. split; [|split; [|split]].
    + revert ST. apply styled_iff. intros k v. rewrite W. intuition discriminate.
    + rewrite K. exact (look_nodup false).
    + rewrite K. cbn. auto.
    + reflexivity.
Qed.

(* ================================================================ C225 *)
(** The other names of options, as matplotlib lists them for lines and for collections. *)
Definition line_names : list (string * string) :=
  [("aa", "antialiased"); ("c", "color"); ("ds", "drawstyle"); ("ls", "linestyle"); ("lw", "linewidth"); ("mec", "markeredgecolor");
   ("mew", "markeredgewidth"); ("mfc", "markerfacecolor"); ("mfcalt", "markerfacecoloralt"); ("ms", "markersize")].
Definition collection_names : list (string * string) :=
  [("antialiaseds", "antialiased"); ("aa", "antialiased"); ("edgecolors", "edgecolor"); ("ec", "edgecolor"); ("facecolors", "facecolor");
   ("fc", "facecolor"); ("linestyles", "linestyle"); ("dashes", "linestyle"); ("ls", "linestyle"); ("linewidths", "linewidth"); ("lw", "linewidth");
   ("transOffset", "offset_transform")].
Lemma names_gen (l : list (string * string)) : NoDup (map fst l) ->
  (forall a f, In (a, f) l -> match find (fun e => String.eqb (fst e) a) l with Some (_, x) => x | None => a end = f) /\
  (forall a, ~ In a (map fst l) -> match find (fun e => String.eqb (fst e) a) l with Some (_, x) => x | None => a end = a).
Proof.
  induction l as [|[b g] l IH]; intros ND; [split; [intros a f []|reflexivity]|]. cbn [map fst] in ND. inversion ND as [|? ? N1 N2]; subst. destruct (IH N2) as (I1 & I2).
  split; cbn [find fst].
  - intros a f [E|H]; [assert (b = a) by congruence; subst; rewrite String.eqb_refl; congruence|]. destruct (String.eqb b a) eqn:E; [|apply I1, H].
    apply String.eqb_eq in E. subst. exfalso. apply N1. exact (in_map fst _ _ H).
  - intros a N. destruct (String.eqb b a) eqn:E; [apply String.eqb_eq in E; subst; exfalso; apply N; left; reflexivity|]. apply I2. intro X. apply N. right. exact X.
Qed.
Theorem C225_names : forall (coll : bool), let names := if coll then collection_names else line_names in let alias := if coll then coll_alias else line_alias in
  (forall a f, In (a, f) names -> alias a = f) /\ (forall k, ~ In k (map fst names) -> alias k = k).
Proof.
  intros coll. destruct coll; cbv zeta.
  - apply (names_gen collection_names). cbn. repeat constructor; cbn; intuition discriminate.
  - apply (names_gen line_names). cbn. repeat constructor; cbn; intuition discriminate.
Qed.
Print Assumptions C225_names.
(** With a window (the default): first a line through all of the observations, in the style asked for over the default one; then the
    window of C145 in the line's colour and nearly transparent unless asked otherwise; then, if edges are asked for, its lower and its upper edge in the window's
    colour unless asked otherwise. *)
Theorem C225_observations_with_window : forall (T : Type) (A : Arith T) used (p : ffplot (T := T)) q, q_window q = true ->
  wants_once line_alias (q_kw q) -> wants_once coll_alias (q_wkw q) -> (forall e, q_edge q = Some e -> wants_once coll_alias e) ->
  exists st m wst color wcolor edges,
    plot_of used p q = Ok (Curve (o_x (obs_of used p)) (o_y (obs_of used p)) st m :: Window (ff_window (obs_of used p)) wst :: edges) /\
    styled (look used) (wanted_of used q) st /\ marked used p q m /\
    In ("color", color) st /\ styled [("color", color); ("alpha", "0.15")] (wants coll_alias (q_wkw q)) wst /\
    In ("color", wcolor) wst /\
    match q_edge q with
    | None => edges = []
    | Some e => exists est, styled [("color", wcolor)] (wants coll_alias e) est /\
        edges = [Curve (map (fun p => fst (fst p)) (ff_window (obs_of used p))) (map (fun p => snd (fst p)) (ff_window (obs_of used p))) est MarksAll;
                 Curve (map (fun p => fst (fst p)) (ff_window (obs_of used p))) (map snd (ff_window (obs_of used p))) est MarksAll]
    end.
Proof.
  intros T A used p q QW O OW OE. destruct (drawn_start used p q O) as (own & rest & m & E & ST & NO & CO & M). rewrite E. unfold draw_obs. rewrite QW.
  destruct (norm_wants _ _ OW) as (wk & EW & NW & WW). rewrite EW. cbn [bind].
  apply in_map_iff in CO. destruct CO as ([ck color] & Ek & CO). cbn in Ek. subst ck.
  rewrite (get_is "color" color own NO CO).
  destruct (pops [("color", color); ("alpha", "0.15")] wk) as [wown wrest] eqn:EP.
  destruct (pops_styled [("color", color); ("alpha", "0.15")] wk wown wrest (ltac:(cbn; repeat constructor; cbn; intuition discriminate)) NW EP) as (KW & SW & _ & _).
  assert (NOW : NoDup (map fst wown)) by (rewrite KW; cbn; repeat constructor; cbn; intuition discriminate).
  assert (CW : In "color" (map fst wown)) by (rewrite KW; left; reflexivity).
  apply in_map_iff in CW. destruct CW as ([ck wcolor] & Ek & CW). cbn in Ek. subst ck.
  assert (SW' : styled [("color", color); ("alpha", "0.15")] (wants coll_alias (q_wkw q)) (wown ++ wrest)) by (revert SW; apply styled_iff; exact WW).
  rewrite (get_is "color" wcolor wown NOW CW).
  destruct (q_edge q) as [e|] eqn:QE.
  - destruct (norm_wants _ _ (OE e eq_refl)) as (ek & EE & NE & WE). rewrite EE. cbn [bind].
    destruct (pops [("color", wcolor)] ek) as [eown erest] eqn:EP'.
    destruct (pops_styled [("color", wcolor)] ek eown erest (ltac:(cbn; repeat constructor; cbn; intuition discriminate)) NE EP') as (_ & SE & _ & _). cbn [bind].
    exists (own ++ rest), m, (wown ++ wrest), color, wcolor. eexists. split; [reflexivity|]. split; [exact ST|]. split; [exact M|].
    split; [apply in_or_app; left; exact CO|]. split; [exact SW'|]. split; [apply in_or_app; left; exact CW|].
    exists (eown ++ erest). split; [revert SE; apply styled_iff; exact WE|reflexivity].
  - cbn [bind]. exists (own ++ rest), m, (wown ++ wrest), color, wcolor, []. split; [reflexivity|]. split; [exact ST|]. split; [exact M|].
    split; [apply in_or_app; left; exact CO|]. split; [exact SW'|]. split; [apply in_or_app; left; exact CW|reflexivity].
Qed.
Print Assumptions C225_observations_with_window.
(** Without a window: all of the observations, with their weights as error bars if they have any. *)
Theorem C225_observations_with_bars : forall (T : Type) (A : Arith T) used (p : ffplot (T := T)) q, q_window q = false -> wants_once line_alias (q_kw q) ->
  exists st m, plot_of used p q = Ok [ErrorBars (o_x (obs_of used p)) (o_y (obs_of used p)) (o_w (obs_of used p)) st m] /\
    styled (look used) (wanted_of used q) st /\ marked used p q m.
Proof.
  intros T A used p q QW O. destruct (drawn_start used p q O) as (own & rest & m & E & ST & _ & _ & M). rewrite E. unfold draw_obs. rewrite QW.
  exists (own ++ rest), m. auto.
Qed.
Print Assumptions C225_observations_with_bars.
(** An option given twice, under whichever of its names, is refused. *)
Theorem C225_given_twice : forall (T : Type) (A : Arith T) used (p : ffplot (T := T)) q,
  ~ wants_once line_alias (q_kw q) \/ q_window q = true /\ wants_once line_alias (q_kw q) /\ ~ wants_once coll_alias (q_wkw q) ->
  plot_of used p q = Err TypeError.
Proof.
  intros T A used p q [H|(QW & O & H)].
  - unfold plot_of, plot_raw, plot_used. destruct used; rewrite (norm_twice line_alias (q_kw q) []) by (constructor || exact H); reflexivity.
  - destruct (drawn_start used p q O) as (own & rest & m & E & _). rewrite E. unfold draw_obs. rewrite QW, (norm_twice coll_alias (q_wkw q) []) by (constructor || exact H). reflexivity.
Qed.
Print Assumptions C225_given_twice.

(* ================================================================ C226, C228 *)
(** The fitted curve is drawn over every observation, used or not, in the style asked for over the default one; with the annotation if that
    is wanted. Without TeX info an annotation is an AttributeError. *)
Theorem C226_fitted_curve : forall (T : Type) (A : Arith T) (p : ffplot (T := T)) info annotate akw kw, wants_once line_alias kw ->
  exists st, styled fit_defaults (wants line_alias kw) st /\
    let curve := Curve (o_x (u_raw (p_obs p))) (p_yfit p) st MarksAll in
    plot_fit p info annotate akw kw = (if annotate then if info then rmap (fun n => [curve; n]) (annotate_info akw) else Err AttributeError else Ok [curve]).
Proof.
  intros T A p info annotate akw kw O. destruct (norm_wants _ _ O) as (nk & EN & ND & W). unfold plot_fit. rewrite EN. cbn [bind].
  destruct (pops fit_look nk) as [own rest] eqn:EP. destruct (pops_styled fit_defaults nk own rest (ltac:(cbn; repeat constructor; cbn; intuition discriminate)) ND EP) as (_ & ST & _ & _).
  exists (own ++ rest). split; [revert ST; apply styled_iff; exact W|reflexivity].
Qed.
Print Assumptions C226_fitted_curve.

(** The names under which the annotation's six settings may be given. *)
Definition note_names : list (string * string) :=
  [("bbox", "bbox"); ("xloc", "x"); ("yloc", "y"); ("ha", "horizontalalignment"); ("va", "verticalalignment"); ("transform", "transform")].
Definition note_defaults : kws :=
  [("bbox", "color=wheat, alpha=0.75"); ("xloc", "1.1"); ("yloc", "0.95"); ("ha", "left"); ("va", "top"); ("transform", "ax.transAxes")].
Lemma note_parts (kw : kws) own rest : NoDup (map fst kw) -> pops note_defaults kw = (own, rest) ->
  (forall k d, In (k, d) note_defaults -> In (k, get k own) kw \/ (forall v, ~ In (k, v) kw) /\ get k own = d) /\
  (forall e, In e rest <-> In e kw /\ ~ In (fst e) (map fst note_defaults)).
Proof.
  intros ND EP. assert (NN : NoDup (map fst note_defaults)) by (cbn; repeat constructor; cbn; intuition discriminate).
  destruct (pops_styled note_defaults kw own rest NN ND EP) as (K & (S1 & S2 & S3 & S4) & R & _). split; [|exact R].
  intros k d H. destruct (S4 k d H) as (v & V). assert (KI : In k (map fst own)) by (rewrite K; exact (in_map fst _ _ H)).
  pose proof (in_app_key k v own rest KI S1 V) as V'. assert (G : get k own = v) by (apply get_is; [rewrite K; exact NN|exact V']).
  rewrite G. destruct (S3 k v V) as [X|[X Y]]; [left; exact X|right]. split; [exact X|].
  clear - H Y NN. assert (U : forall l : kws, NoDup (map fst l) -> In (k, v) l -> In (k, d) l -> v = d).
  { induction l as [|[a b] l IH]; intros N I1 I2; [destruct I1|]. cbn in N. inversion N as [|? ? N1 N2]; subst. destruct I1 as [I1|I1], I2 as [I2|I2].
    - congruence.
    - exfalso. apply N1. replace a with k by congruence. exact (in_map fst _ _ I2).
    - exfalso. apply N1. replace a with k by congruence. exact (in_map fst _ _ I1).
    - exact (IH N2 I1 I2). }
  exact (U note_defaults NN Y H).
Qed.
(** The annotation stands where and how it is asked to, and otherwise just right of the axes at their top, in a wheat box; further
    options are passed on, but not those that go by another name here (x, y, horizontalalignment, verticalalignment). *)
Theorem C228_annotation : forall (T : Type) (kw : kws), NoDup (map fst kw) ->
  (forall v k, In k ["x"; "y"; "horizontalalignment"; "verticalalignment"] -> ~ In (k, v) kw) ->
  exists st, annotate_info (T := T) kw = Ok (Note st) /\
    (forall k full, In (k, full) note_names -> exists v, In (full, v) st /\ (In (k, v) kw \/ (forall v', ~ In (k, v') kw) /\ In (k, v) note_defaults)) /\
    (forall k v, In (k, v) kw -> ~ In k (map fst note_names) -> In (k, v) st).
Proof.
  intros T kw ND NF. unfold annotate_info. change [("bbox", "color=wheat, alpha=0.75"); ("xloc", "1.1"); ("yloc", "0.95"); ("ha", "left"); ("va", "top"); ("transform", "ax.transAxes")] with note_defaults.
  destruct (pops note_defaults kw) as [own rest] eqn:EP. destruct (note_parts kw own rest ND EP) as (G & R).
  rewrite call_ok.
  2:{ intros k v Hk. apply R in Hk. destruct Hk as [Hk NK]. cbn [fst map note_defaults] in *. cbn [map fst In]. intros X.
      assert (C : In k ["x"; "y"; "horizontalalignment"; "verticalalignment"] \/ In k ["bbox"; "transform"]) by (cbn; intuition).
      destruct C as [C|C]; [exact (NF v k C Hk)|apply NK; cbn in *; intuition]. }
  cbn [rmap]. eexists. split; [reflexivity|]. split.
  - intros k full H. assert (D : exists d, In (k, d) note_defaults).
    { cbn in H. repeat (destruct H as [H|H]; [assert (k = fst (k, full)) as -> by reflexivity; rewrite <- H; eexists; cbn; eauto 10|]). destruct H. }
    destruct D as (d & D). exists (get k own). split.
    + apply in_or_app. left. cbn in H. repeat (destruct H as [H|H]; [assert (Q1 : k = fst (k, full)) by reflexivity; assert (Q2 : full = snd (k, full)) by reflexivity; rewrite <- H in Q1, Q2; cbn in Q1, Q2; subst k full; cbn; auto 10|]). destruct H.
    + destruct (G k d D) as [X|[X Y]]; [left; exact X|right]. split; [exact X|rewrite Y; exact D].
  - intros k v H N. apply in_or_app. right. apply R. split; [exact H|]. cbn in *. exact N.
Qed.
Print Assumptions C228_annotation.
(** Giving a setting its full name is refused. *)
Theorem C228_full_names_refuted : forall (T : Type) (kw : kws) k v, NoDup (map fst kw) -> In k ["x"; "y"; "horizontalalignment"; "verticalalignment"] -> In (k, v) kw ->
  annotate_info (T := T) kw = Err TypeError.
Proof.
  intros T kw k v ND K H. unfold annotate_info. change [("bbox", "color=wheat, alpha=0.75"); ("xloc", "1.1"); ("yloc", "0.95"); ("ha", "left"); ("va", "top"); ("transform", "ax.transAxes")] with note_defaults.
  destruct (pops note_defaults kw) as [own rest] eqn:EP. destruct (note_parts kw own rest ND EP) as (_ & R).
  unfold call_with. match goal with |- rmap _ (if ?b then _ else _) = _ => replace b with true; [reflexivity|] end. symmetry. apply existsb_exists. exists (k, v). split.
  - apply R. split; [exact H|]. cbn in *. intuition congruence.
  - apply mem_str_In. cbn in *. intuition congruence.
Qed.
Print Assumptions C228_full_names_refuted.
(** The defaults are not the documented ones (at 0.05, 0.9). *)
Theorem C228_documented_place_refuted : forall (T : Type), exists st, annotate_info (T := T) [] = Ok (Note st) /\ In ("x", "1.1") st /\ In ("y", "0.95") st /\ ~ In ("x", "0.05") st /\ ~ In ("y", "0.9") st.
Proof. intro T. eexists. split; [reflexivity|]. cbn. repeat split; auto; intuition discriminate. Qed.
Print Assumptions C228_documented_place_refuted.

(* ================================================================ C227 *)
(** [q] with a shared drawstyle *)
Lemma shared_ok ds q : wants_once line_alias (q_kw q) -> (forall v, ~ wants line_alias (q_kw q) "drawstyle" v) ->
  with_drawstyle ds q = Ok (mkOpts (q_window q) (q_edge q) (q_wkw q) (("drawstyle", ds) :: q_kw q)) /\
  wants_once line_alias (("drawstyle", ds) :: q_kw q).
Proof.
  intros O N. unfold with_drawstyle. destruct (mem_str "drawstyle" (map fst (q_kw q))) eqn:E.
  - exfalso. apply mem_str_In, in_map_iff in E. destruct E as ([a b] & E & H). cbn in E. apply (N b). exists a. split; [exact H|]. rewrite E. reflexivity.
  - split; [reflexivity|]. unfold wants_once. cbn [map fst]. change (line_alias "drawstyle") with "drawstyle". constructor; [|exact O].
    intro X. apply in_map_iff in X. destruct X as ([a b] & E1 & H). cbn in E1. apply (N b). exists a. split; [exact H|exact E1].
Qed.
Lemma wants_cons alias a x kw k v : wants alias ((a, x) :: kw) k v <-> (k = alias a /\ v = x) \/ wants alias kw k v.
Proof.
  unfold wants. split.
  - intros (b & [E|H] & Q); [left; split; congruence|right; eauto].
  - intros [(-> & ->)|(b & H & Q)]; [exists a; split; [left; reflexivity|reflexivity]|exists b; split; [right; exact H|exact Q]].
Qed.
(** The observations as the first thing drawn: in the shared drawstyle, and otherwise as their own options and the defaults say. *)
Definition observed {T} {A : Arith T} (used : bool) (p : ffplot (T := T)) (q : ff_opts) (ds : string) (l : list (piece (T := T))) : Prop :=
  exists st m more,
    l = (if q_window q then Curve (o_x (obs_of used p)) (o_y (obs_of used p)) st m else ErrorBars (o_x (obs_of used p)) (o_y (obs_of used p)) (o_w (obs_of used p)) st m) :: more /\
    styled (look used) (fun k v => (k = "drawstyle" /\ v = ds) \/ wanted_of used q k v) st /\ marked used p q m /\
    if q_window q then exists wst edges, more = Window (ff_window (obs_of used p)) wst :: edges /\ List.length edges = (match q_edge q with Some _ => 2 | None => 0 end)%nat
    else more = [].
Definition fine (q : ff_opts) : Prop :=
  wants_once line_alias (q_kw q) /\ wants_once coll_alias (q_wkw q) /\ (forall e, q_edge q = Some e -> wants_once coll_alias e) /\
  forall v, ~ wants line_alias (q_kw q) "drawstyle" v.
Definition given_opts (o : option ff_opts) : ff_opts := match o with Some q => q | None => mkOpts true None [] [] end.

Lemma observed_ok {T} {A : Arith T} (used : bool) (p : ffplot (T := T)) q ds : fine q ->
  exists q' l, with_drawstyle ds q = Ok q' /\ plot_of used p q' = Ok l /\ observed used p q ds l.
Proof.
  intros (O & OW & OE & ND). destruct (shared_ok ds q O ND) as (E & O').
  set (q' := mkOpts (q_window q) (q_edge q) (q_wkw q) (("drawstyle", ds) :: q_kw q)) in *. exists q'.
  assert (WI : forall k v, wanted_of used q' k v <-> (k = "drawstyle" /\ v = ds) \/ wanted_of used q k v).
  { intros k v. unfold wanted_of. cbn [q_kw q']. rewrite wants_cons. change (line_alias "drawstyle") with "drawstyle". split.
    - intros ([H|H] & M); [left; exact H|right; split; [exact H|exact M]].
    - intros [(-> & ->)|(H & M)]; [split; [left; auto|intros _; discriminate]|split; [right; exact H|exact M]]. }
  assert (MI : forall m, marked used p q' m -> marked used p q m).
  { intros m. unfold marked. destruct used; [|auto]. intros [(v & V & N & E1)|(V & E1)].
    - left. exists v. split; [|auto]. unfold q' in V. cbn [q_kw] in V. rewrite wants_cons in V. destruct V as [(X & _)|V]; [discriminate X|exact V].
    - right. split; [|exact E1]. intros v Hv. apply V. unfold q'. cbn [q_kw]. rewrite wants_cons. right. exact Hv. }
  destruct (q_window q) eqn:QW.
  - destruct (C225_observations_with_window T A used p q' eq_refl O' OW OE) as (st & m & wst & color & wcolor & edges & P1 & P2 & P3 & P4 & P5 & P6 & P7).
    eexists. split; [exact E|]. split; [exact P1|]. exists st, m, (Window (ff_window (obs_of used p)) wst :: edges). rewrite QW.
    split; [reflexivity|]. split; [revert P2; apply styled_iff; exact WI|]. split; [apply MI, P3|]. exists wst, edges. split; [reflexivity|].
    unfold q' in P7. cbn [q_edge] in P7. destruct (q_edge q); [destruct P7 as (est & _ & ->); reflexivity|rewrite P7; reflexivity].
  - destruct (C225_observations_with_bars T A used p q' eq_refl O') as (st & m & P1 & P2 & P3).
    eexists. split; [exact E|]. split; [exact P1|]. exists st, m, []. rewrite QW.
    split; [reflexivity|]. split; [revert P2; apply styled_iff; exact WI|]. split; [apply MI, P3|reflexivity].
Qed.
(** First the raw observations, then the ones used, both with the same drawstyle ("steps-mid" unless another is asked for), then the
    fit, which is put in front (zorder 2.2) unless it is given options of its own. *)
Theorem C227_all_three : forall (T : Type) (A : Arith T) (p : ffplot (T := T)) info drawstyle annotate raw used fit annot,
  fine (given_opts raw) -> fine (given_opts used) -> (forall kw, fit = Some kw -> wants_once line_alias kw) ->
  annotate = false ->
  exists r u st,
    plot_raw_used_fit p info drawstyle annotate raw used fit annot = Ok (r, u, [Curve (o_x (u_raw (p_obs p))) (p_yfit p) st MarksAll]) /\
    (let ds := match drawstyle with Some s => s | None => "steps-mid" end in observed false p (given_opts raw) ds r /\ observed true p (given_opts used) ds u) /\
    styled fit_defaults (fun k v => match fit with Some kw => wants line_alias kw k v | None => k = "zorder" /\ v = "2.2" end) st.
Proof.
  intros T A p info drawstyle annotate raw used fit annot FR FU FF ->. unfold plot_raw_used_fit. cbv zeta.
  set (ds := match drawstyle with Some s => s | None => "steps-mid" end).
  change (match raw with Some q => q | None => default_opts end) with (given_opts raw). change (match used with Some q => q | None => default_opts end) with (given_opts used).
  destruct (observed_ok false p (given_opts raw) ds FR) as (qr & r & R1 & R2 & R3). destruct (observed_ok true p (given_opts used) ds FU) as (qu & u & U1 & U2 & U3).
  unfold plot_of in R2, U2. rewrite R1. cbn [bind]. rewrite R2. cbn [bind]. rewrite U1. cbn [bind]. rewrite U2. cbn [bind].
  assert (O : wants_once line_alias (match fit with Some k => k | None => [("zorder", "2.2")] end)).
  { destruct fit as [k|]; [apply FF; reflexivity|]. cbn. constructor; [intros []|constructor]. }
  destruct (C226_fitted_curve T A p info false (match annot with Some k => k | None => [] end) _ O) as (st & S1 & S2). cbv zeta in S2. rewrite S2. cbn [bind].
  exists r, u, st. split; [reflexivity|]. split; [split; assumption|]. revert S1. destruct fit as [k|]; apply styled_iff; intros k0 v0; [tauto|].
  rewrite wants_cons. change (line_alias "zorder") with "zorder". split; [intros [H|(x & [] & _)]; exact H|auto].
Qed.
Print Assumptions C227_all_three.
(** With the annotation (the default), the note of C228 is added to the fit. *)
Theorem C227_annotated : forall (T : Type) (A : Arith T) (p : ffplot (T := T)) info drawstyle raw used fit annot r u f,
  plot_raw_used_fit p info drawstyle false raw used fit annot = Ok (r, u, f) ->
  plot_raw_used_fit p info drawstyle true raw used fit annot =
    if info then rmap (fun n => (r, u, f ++ [n])) (annotate_info (match annot with Some k => k | None => [] end)) else Err AttributeError.
Proof.
  intros T A p info drawstyle raw used fit annot r u f. unfold plot_raw_used_fit, plot_fit. cbv zeta.
  repeat match goal with |- bind ?x _ = _ -> _ => destruct x eqn:?; cbn [bind]; [|discriminate] end.
  destruct (norm line_alias match fit with Some k => k | None => [("zorder", "2.2")] end []) as [nk|]; cbn [bind]; [|discriminate].
  cbn [bind] in *. match goal with H : (let '(_, _) := _ in _) = Ok _ |- _ => revert H end. destruct (pops fit_look nk) as [own rest]. intros EC E.
  assert (E' : (r, u, f) = (a0, a2, [Curve (o_x (u_raw (p_obs p))) (p_yfit p) (own ++ rest) MarksAll])) by congruence.
  assert (r = a0) by congruence. assert (u = a2) by congruence. assert (f = [Curve (o_x (u_raw (p_obs p))) (p_yfit p) (own ++ rest) MarksAll]) by congruence. subst r u f. clear E E'.
  destruct info; [|reflexivity]. destruct (annotate_info match annot with Some k => k | None => [] end); cbn; reflexivity.
Qed.
Print Assumptions C227_annotated.
(** But no drawstyle of its own can be asked for either kind of observations: it is refused, under both of its names. *)
Theorem C227_own_drawstyle_refuted : forall (T : Type) (A : Arith T) (p : ffplot (T := T)) info drawstyle annotate raw used fit annot v,
  wants line_alias (q_kw (given_opts raw)) "drawstyle" v \/ fine (given_opts raw) /\ wants line_alias (q_kw (given_opts used)) "drawstyle" v ->
  plot_raw_used_fit p info drawstyle annotate raw used fit annot = Err TypeError.
Proof.
  intros T A p info drawstyle annotate raw used fit annot v H. unfold plot_raw_used_fit. cbv zeta.
  set (ds := match drawstyle with Some s => s | None => "steps-mid" end).
  change (match raw with Some q => q | None => default_opts end) with (given_opts raw). change (match used with Some q => q | None => default_opts end) with (given_opts used).
  assert (K : forall (b : bool) q, wants line_alias (q_kw q) "drawstyle" v -> bind (with_drawstyle ds q) (fun q' => plot_of (T := T) b p q') = Err TypeError).
  { intros b q (a & Ha & Ea). unfold with_drawstyle. destruct (mem_str "drawstyle" (map fst (q_kw q))) eqn:E; [reflexivity|]. cbn [bind].
    apply C225_given_twice. left. cbn [q_kw]. intro N. unfold wants_once in N. cbn [map fst] in N. inversion N as [|? ? N1 _]; subst. apply N1.
    change (line_alias "drawstyle") with "drawstyle". rewrite <- Ea. exact (in_map (fun e => line_alias (fst e)) _ _ Ha). }
  destruct H as [H|[F H]].
  - specialize (K false _ H). unfold plot_of in K. destruct (with_drawstyle ds (given_opts raw)); cbn [bind] in *; [rewrite K; reflexivity|congruence].
  - destruct (observed_ok false p (given_opts raw) ds F) as (qr & r & R1 & R2 & _). unfold plot_of in R2. rewrite R1. cbn [bind]. rewrite R2. cbn [bind].
    specialize (K true _ H). unfold plot_of in K. destruct (with_drawstyle ds (given_opts used)); cbn [bind] in *; [rewrite K; reflexivity|congruence].
Qed.
Print Assumptions C227_own_drawstyle_refuted.

(* ---------------------------------------------------------------- examples *)
Definition ex_opts : ff_opts := mkOpts true (Some [("lw", "2")]) [("alpha", "0.5")] [("c", "red"); ("markevery", "3")].
Example ex_opts_fine : fine ex_opts.
Proof.
  unfold fine, ex_opts. cbn [q_kw q_wkw q_edge]. split; [repeat constructor; cbn; intuition discriminate|]. split; [repeat constructor; cbn; intuition discriminate|].
  split; [intros e E; assert (e = [("lw", "2")]) by congruence; subst e; repeat constructor; cbn; intuition discriminate|].
  intros v (a & H & E). cbn in H. destruct H as [H|[H|[]]]; assert (Q : a = fst (a, v)) by reflexivity; rewrite <- H in Q; cbn in Q; subst a; discriminate E.
Qed.
(** C225, C227: red, every third point marked, the window half opaque and with edges: what is drawn is styled so *)
Example C225_ex (p : ffplot (T := XR)) : exists st m more, plot_used p ex_opts = Ok (Curve (o_x (u_used (p_obs p))) (o_y (u_used (p_obs p))) st m :: more) /\
  In ("color", "red") st /\ m = MarksAsked "3" /\ List.length more = 3%nat.
Proof. eexists _, _, _. split; [vm_compute; reflexivity|]. split; [cbn; auto|]. split; reflexivity. Qed.
Example C225_twice_ex (p : ffplot (T := XR)) : plot_raw p (mkOpts true None [] [("c", "red"); ("color", "blue")]) = Err TypeError.
Proof. reflexivity. Qed.
Example C226_ex (p : ffplot (T := XR)) : wants_once line_alias [("ls", "--")] /\ exists st, plot_fit p true false [] [("ls", "--")] = Ok [Curve (o_x (u_raw (p_obs p))) (p_yfit p) st MarksAll] /\ In ("linestyle", "--") st.
Proof. split; [repeat constructor; intros []|]. eexists. split; [vm_compute; reflexivity|]. cbn. auto. Qed.
Example C227_ex (p : ffplot (T := XR)) : exists r u st, plot_raw_used_fit p true None false None (Some ex_opts) None None = Ok (r, u, [Curve (o_x (u_raw (p_obs p))) (p_yfit p) st MarksAll]) /\ In ("zorder", "2.2") st.
Proof. eexists _, _, _. split; [vm_compute; reflexivity|]. cbn. auto. Qed.
Example C227_refuted_ex (p : ffplot (T := XR)) : wants line_alias (q_kw (mkOpts true None [] [("ds", "default")])) "drawstyle" "default" /\
  plot_raw_used_fit p true None false (Some (mkOpts true None [] [("ds", "default")])) None None None = Err TypeError.
Proof. split; [exists "ds"; split; [left; reflexivity|reflexivity]|reflexivity]. Qed.
Example C228_ex : NoDup (map fst [("xloc", "0.2"); ("fontsize", "9")]) /\ exists st, annotate_info (T := XR) [("xloc", "0.2"); ("fontsize", "9")] = Ok (Note st) /\ In ("x", "0.2") st /\ In ("fontsize", "9") st.
Proof. split; [repeat constructor; cbn; intuition discriminate|]. eexists. split; [vm_compute; reflexivity|]. cbn. auto 10. Qed.
