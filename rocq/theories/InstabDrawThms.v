(** C229 (the threshold curves as drawn by StabilityContours.plot_contours). *)
From Coq Require Import Reals List String Bool Arith ZArith Lia Lra.
From Verif Require Import Py PyStr Num FitCore FitCoreThms FitPlot FitPlotThms TrendPlot TrendPlotThms FFDraw FFDrawThms Instability InstabilityThms InstabDraw.
Import ListNotations.
Open Scope string_scope.
Open Scope list_scope.

(* ------------------------------------------------------------------ specification *)
(** the curve of this instability is among those asked for *)
Definition kind_asked (upper : string -> string) (tk : tk_arg) (i : inst) : Prop :=
  match tk with TkNone => True | TkOne s => upper s = inst_name i | TkMany l => exists s, In (TkText s) l /\ upper s = inst_name i end.
Definition all_kinds (upper : string -> string) (tk : tk_arg) : Prop :=
  match tk with TkNone => True | TkOne s => exists i, upper s = inst_name i | TkMany l => forall x, In x l -> exists s i, x = TkText s /\ upper s = inst_name i end.
Definition once_each (upper : string -> string) (tk : tk_arg) : Prop :=
  match tk with TkMany l => NoDup (map (fun x => match x with TkText s => upper s | TkOther => "" end) l) | _ => True end.
Definition colour_of (i : inst) : string := match i with AIC => "#ffcb05" | FMW => "#00B2A9" | MM => "#00274c" | OFI => "#D86018" end.
Definition marker_of (i : inst) : string := match i with AIC => "X" | FMW => "d" | MM => "o" | OFI => "P" end.
Definition dashes_of (g : Z) : string := if Z.eqb g (-4) then "--" else if Z.eqb g (-3) then ":" else "-.".
Definition name_of (i : inst) : string := match i with AIC => "AIC" | FMW => "FMW" | MM => "MM" | OFI => "OFI" end.
(** options that belong to the curve itself *)
Definition own_option (k : string) : Prop := In k ["color"; "linestyle"; "marker"; "label"].

(* ------------------------------------------------------------------ lemmas *)
Lemma line_alias_twice k : line_alias (line_alias k) = line_alias k.
Proof.
  unfold line_alias at 2 3. match goal with |- context[find ?f ?l] => destruct (find f l) as [[a b]|] eqn:E end.
  - apply find_some in E. destruct E as [E _]. cbn in E. repeat (destruct E as [E|E]; [replace b with (snd (a, b)) by reflexivity; rewrite <- E; reflexivity|]). destruct E.
  - unfold line_alias. rewrite E. reflexivity.
Qed.
Lemma kind_named_is s i : kind_named s = Some i <-> s = inst_name i.
Proof.
  unfold kind_named. split.
  - intros H. apply find_some in H. destruct H as [_ H]. apply String.eqb_eq in H. symmetry. exact H.
  - intros ->. destruct i; reflexivity.
Qed.
Lemma inst_name_inj i j : inst_name i = inst_name j -> i = j. Proof. destruct i, j; cbn; congruence. Qed.
Lemma tk_columns_ok upper tk : all_kinds upper tk -> exists cols, tk_columns upper tk = Ok cols /\ (forall i, In i cols <-> kind_asked upper tk i) /\ (once_each upper tk -> NoDup cols).
Proof.
  assert (M : forall l, (forall x, In x l -> exists s i, x = TkText s /\ upper s = inst_name i) ->
    exists cols, tk_columns upper (TkMany l) = Ok cols /\ map inst_name cols = map (fun x => match x with TkText s => upper s | TkOther => "" end) l /\ (forall i, In i cols <-> exists s, In (TkText s) l /\ upper s = inst_name i)).
  { intros l H. unfold tk_columns.
    assert (E : forallb (fun x => match x with TkText _ => true | TkOther => false end) l = true).
    { apply forallb_forall. intros x Hx. destruct (H x Hx) as (s & i & -> & _). reflexivity. }
    rewrite E. cbn [negb]. clear E. induction l as [|x l IH].
    - exists []. cbn. split; [reflexivity|]. split; [reflexivity|]. intro i. split; [intros []|intros (s & [] & _)].
    - destruct IH as (cols & E1 & E2 & E3); [intros y Hy; apply H; right; exact Hy|]. destruct (H x (or_introl eq_refl)) as (s & i & -> & U).
      exists (i :: cols). cbn [map mapM]. rewrite (proj2 (kind_named_is (upper s) i) U). cbn [bind]. rewrite E1. cbn [bind].
      split; [reflexivity|]. split; [cbn; rewrite U, E2; reflexivity|]. intro j. cbn [In]. rewrite E3. split.
      + intros [<-|(t & Ht & Ut)]; [exists s; auto|exists t; auto].
      + intros (t & [Ht|Ht] & Ut); [left; assert (t = s) by congruence; subst; apply inst_name_inj; congruence|right; eauto]. }
  intros H. destruct tk as [|s|l].
  - exists contour_kinds. split; [reflexivity|]. split; [|intros _; cbn; repeat constructor; cbn; intuition discriminate].
    intro i. cbn. destruct i; intuition.
  - destruct (M [TkText s]) as (cols & E1 & E2 & E3).
    { intros x [<-|[]]. destruct H as (i & U). exists s, i. auto. }
    exists cols. split; [exact E1|]. split; [intro i; rewrite E3; cbn; split; [intros (t & [Ht|[]] & U); congruence|eauto]|].
    intros _. destruct cols as [|c [|c' cols]]; [constructor|constructor; [intros []|constructor]|discriminate E2].
  - destruct (M l H) as (cols & E1 & E2 & E3). exists cols. split; [exact E1|]. split; [exact E3|].
    intros ND. cbn in ND. rewrite <- E2 in ND. exact (NoDup_map_inv _ _ ND).
Qed.
Definition tells (st : kws) (i : inst) (g : Z) (kw : kws) : Prop :=
  wants_once line_alias st /\
  forall k v, wants line_alias st k v <->
    In (k, v) [("color", colour_of i); ("linestyle", dashes_of g); ("marker", marker_of i); ("label", name_of i)] \/ wants line_alias kw k v \/
    (forall v', ~ wants line_alias kw k v') /\ In (k, v) [("markersize", "10"); ("markeredgewidth", "0.5"); ("markeredgecolor", "k"); ("markevery", "10")].
Lemma call_ok' own more : (forall k v, In (k, v) more -> ~ In k (map fst own)) -> call_with own more = Ok (own ++ more).
Proof. intros H. apply call_ok. exact H. Qed.
Lemma start kw : wants_once line_alias kw -> (forall k v, own_option k -> ~ wants line_alias kw k v) ->
  exists nk own rest, norm line_alias kw [] = Ok nk /\ pops contour_markers nk = (own, rest) /\
    forall (beta : list XR) g i, exists st, draw_contour beta own rest (g, i) = Ok (mkCurve g i beta (contour_values beta g i) st) /\ tells st i g kw.
Proof.
  intros O NO. destruct (norm_wants line_alias kw O) as (nk & EN & ND & W). destruct (pops contour_markers nk) as [own rest] eqn:EP.
  exists nk, own, rest. split; [exact EN|]. split; [exact EP|].
  assert (MN : NoDup (map fst contour_markers)) by (cbn; repeat constructor; cbn; intuition discriminate).
  destruct (pops_styled contour_markers nk own rest MN ND EP) as (K & (S1 & S2 & S3 & S4) & R & NR).
  destruct own as [|[k1 a] [|[k2 b] [|[k3 c] [|[k4 d] [|]]]]]; cbn [map fst contour_markers] in K; try discriminate K.
  assert (k1 = "markersize") by congruence. assert (k2 = "markeredgewidth") by congruence. assert (k3 = "markeredgecolor") by congruence. assert (k4 = "markevery") by congruence.
  subst k1 k2 k3 k4. clear K. intros beta g i. unfold draw_contour.
  assert (RA : forall e, In e rest -> line_alias (fst e) = fst e).
  { intros [k v] He. apply R in He. destruct He as (He & _). apply W in He. destruct He as (x & _ & E). cbn [fst]. rewrite <- E. apply line_alias_twice. }
  assert (RF : forall e, In e rest -> ~ In (fst e) ["markersize"; "markeredgewidth"; "markeredgecolor"; "markevery"; "color"; "linestyle"; "marker"; "label"]).
  { intros [k v] He X. pose proof He as He'. apply R in He. destruct He as (He & NM). cbn [fst] in *.
    assert (C : In k ["markersize"; "markeredgewidth"; "markeredgecolor"; "markevery"] \/ own_option k) by (unfold own_option; cbn in *; intuition).
    destruct C as [C|C]; [exact (NM C)|]. apply (NO k v C). apply W. exact He. }
  rewrite call_ok'.
  2:{ intros k v He X. pose proof (RA _ He) as RA1. pose proof (RF _ He) as RF1. cbn [fst] in RA1, RF1. cbn [map fst app contour_look In] in X.
      destruct X as [X|[X|[X|[X|[X|[X|[X|[X|[]]]]]]]]]; subst k; try (apply RF1; cbn; auto 10; fail); vm_compute in RA1; discriminate RA1. }
  cbn [rmap]. eexists. split; [reflexivity|].
  change (get "markevery" [("markersize", a); ("markeredgewidth", b); ("markeredgecolor", c); ("markevery", d)]) with d.
  change (get "markersize" [("markersize", a); ("markeredgewidth", b); ("markeredgecolor", c); ("markevery", d)]) with a.
  change (get "markeredgewidth" [("markersize", a); ("markeredgewidth", b); ("markeredgecolor", c); ("markevery", d)]) with b.
  change (get "markeredgecolor" [("markersize", a); ("markeredgewidth", b); ("markeredgecolor", c); ("markevery", d)]) with c.
  split.
  - unfold wants_once. rewrite map_app. cbn [map app fst contour_look].
    change (line_alias "markevery") with "markevery". change (line_alias "ms") with "markersize". change (line_alias "mew") with "markeredgewidth". change (line_alias "mec") with "markeredgecolor".
    change (line_alias "color") with "color". change (line_alias "linestyle") with "linestyle". change (line_alias "marker") with "marker". change (line_alias "label") with "label".
    assert (RM : map (fun e => line_alias (fst e)) rest = map fst rest) by (apply map_ext_in; exact RA). rewrite RM.
    assert (NI : forall k, In k ["markersize"; "markeredgewidth"; "markeredgecolor"; "markevery"; "color"; "linestyle"; "marker"; "label"] -> ~ In k (map fst rest)).
    { intros k Hk X. apply in_map_iff in X. destruct X as (e & <- & He). exact (RF e He Hk). }
    repeat (constructor; [cbn [In]; intros X; repeat (destruct X as [X|X]; [discriminate X|]); revert X; apply NI; cbn; auto 10|]). exact NR.
  - intros k v.
    assert (ME : forall k v, In (k, v) [("markersize", a); ("markeredgewidth", b); ("markeredgecolor", c); ("markevery", d)] -> In (k, v) nk \/ (forall v', ~ In (k, v') nk) /\ In (k, v) contour_markers).
    { intros k0 v0 H. apply S3. apply in_or_app. left. exact H. }
    split.
    + intros (x & Hx & E). apply in_app_or in Hx. destruct Hx as [Hx|Hx].
      * cbn [In app contour_look] in Hx.
        assert (P : In (k, v) [("markersize", a); ("markeredgewidth", b); ("markeredgecolor", c); ("markevery", d)] \/
                    In (k, v) [("color", colour_of i); ("linestyle", dashes_of g); ("marker", marker_of i); ("label", name_of i)]).
        { rewrite <- E. destruct Hx as [Hx|[Hx|[Hx|[Hx|[Hx|[Hx|[Hx|[Hx|[]]]]]]]]];
            (assert (Q1 : x = fst (x, v)) by reflexivity; assert (Q2 : v = snd (x, v)) by reflexivity; rewrite <- Hx in Q1, Q2; cbn [fst snd] in Q1, Q2; subst x v);
            [left; right; right; right; left|left; left|left; right; left|left; right; right; left|right; left|right; right; left|right; right; right; left|right; right; right; right; left];
            reflexivity. }
        destruct P as [P|P]; [|left; exact P]. right. destruct (ME k v P) as [X|[X Y]]; [left; apply W; exact X|right]. split; [intros v' V; apply (X v'), W, V|exact Y].
      * right. left. apply W. pose proof (RA _ Hx) as RA1. cbn [fst] in RA1. rewrite <- E, RA1. apply R. exact Hx.
    + assert (ST : forall k v, In (k, v) ([("markersize", a); ("markeredgewidth", b); ("markeredgecolor", c); ("markevery", d)] ++ rest) ->
                wants line_alias (([("markevery", d); ("ms", a); ("mew", b); ("mec", c)] ++ contour_look g i ++ [("label", inst_name i)]) ++ rest) k v).
      { intros k0 v0 H. apply in_app_or in H. destruct H as [H|H].
        - cbn [In] in H. destruct H as [H|[H|[H|[H|[]]]]];
            (assert (Q1 : k0 = fst (k0, v0)) by reflexivity; assert (Q2 : v0 = snd (k0, v0)) by reflexivity; rewrite <- H in Q1, Q2; cbn [fst snd] in Q1, Q2; subst k0 v0);
            [exists "ms"|exists "mew"|exists "mec"|exists "markevery"]; (split; [apply in_or_app; left; cbn; auto 10|reflexivity]).
        - exists k0. split; [apply in_or_app; right; exact H|exact (RA _ H)]. }
      intros [H|[H|[H1 H2]]].
      * cbn [In] in H. destruct H as [H|[H|[H|[H|[]]]]];
          (assert (Q1 : k = fst (k, v)) by reflexivity; assert (Q2 : v = snd (k, v)) by reflexivity; rewrite <- H in Q1, Q2; cbn [fst snd] in Q1, Q2; subst k v);
          [exists "color"|exists "linestyle"|exists "marker"|exists "label"]; (split; [apply in_or_app; left; cbn [app contour_look]; destruct i; cbn [In]; auto 12|reflexivity]).
      * apply ST. apply S2, W, H.
      * destruct (S4 k v H2) as (v' & V'). apply ST. destruct (S3 k v' V') as [X|[X Y]]; [exfalso; exact (H1 v' (proj1 (W k v') X))|].
        replace v with v'; [exact V'|]. clear - H2 Y. cbn in H2, Y.
        destruct Y as [Y|[Y|[Y|[Y|[]]]]], H2 as [Z|[Z|[Z|[Z|[]]]]]; congruence.
Qed.
Lemma draw_all (beta : list XR) own rest plot_gamma kw (l : list (Z * inst)) :
  (forall g, plot_gamma = Some g -> In g growth_rates) ->
  (forall g i, exists st, draw_contour beta own rest (g, i) = Ok (mkCurve g i beta (contour_values beta g i) st) /\ tells st i g kw) ->
  exists cs, draw_contours beta own rest plot_gamma l = Ok cs /\
    map (fun c => (v_rate c, v_kind c)) cs = filter (fun gi => match plot_gamma with None => true | Some g => Z.eqb (fst gi) g end) l /\
    forall c, In c cs -> v_x c = beta /\ v_y c = contour_values beta (v_rate c) (v_kind c) /\ tells (v_style c) (v_kind c) (v_rate c) kw.
Proof.
  intros G D. induction l as [|[g i] l (cs & E1 & E2 & E3)]; [exists []; split; [reflexivity|split; [reflexivity|intros c []]]|].
  cbn [draw_contours filter fst]. destruct (D g i) as (st & E & TL).
  assert (X : bind (draw_contour beta own rest (g, i)) (fun c => rmap (cons c) (draw_contours beta own rest plot_gamma l)) = Ok (mkCurve g i beta (contour_values beta g i) st :: cs)).
  { rewrite E. cbn [bind]. rewrite E1. reflexivity. }
  destruct plot_gamma as [pg|].
  - assert (V : existsb (Z.eqb pg) [-2; -3; -4]%Z = true) by (destruct (G pg eq_refl) as [<-|[<-|[<-|[]]]]; reflexivity). rewrite V. cbn [negb].
    destruct (Z.eqb g pg) eqn:EG; cbn [negb].
    + rewrite X. eexists. split; [reflexivity|]. split; [cbn; rewrite E2; reflexivity|]. intros c [<-|Hc]; [cbn; auto|apply E3; exact Hc].
    + exists cs. split; [exact E1|]. split; [exact E2|exact E3].
  - rewrite X. eexists. split; [reflexivity|]. split; [cbn; rewrite E2; reflexivity|]. intros c [<-|Hc]; [cbn; auto|apply E3; exact Hc].
Qed.

(* ================================================================ C229 *)
(** On a pandas that still has iteritems: one curve for each of the growth rates and instabilities asked for (names in any case that [upper]
    understands), through the given betas, at the heights 1 + a/(beta - c)^b of the table; in the instability's colour and marker, the growth
    rate's dashes, under the instability's name, and otherwise as asked for over the defaults; logarithmic axes if wanted. *)
Theorem C229_contours : forall upper (beta : list XR) fix_scale plot_gamma tk kw,
  all_kinds upper tk -> once_each upper tk -> (forall g, plot_gamma = Some g -> In g growth_rates) ->
  wants_once line_alias kw -> (forall k v, own_option k -> ~ wants line_alias kw k v) ->
  exists d, plot_contours true upper beta fix_scale plot_gamma tk kw = Ok d /\ cp_log d = fix_scale /\
    (forall g i, (exists c, In c (cp_curves d) /\ v_rate c = g /\ v_kind c = i) <->
       In g growth_rates /\ (plot_gamma = None \/ plot_gamma = Some g) /\ kind_asked upper tk i) /\
    NoDup (map (fun c => (v_rate c, v_kind c)) (cp_curves d)) /\
    (forall c, In c (cp_curves d) ->
       v_x c = beta /\ List.length (v_y c) = List.length beta /\
       (forall n b, nth_error beta n = Some (Fin b) -> (pole (params_of (v_rate c) (v_kind c)) < b)%R ->
          nth_error (v_y c) n = Some (Fin (threshold (params_of (v_rate c) (v_kind c)) b))) /\
       tells (v_style c) (v_kind c) (v_rate c) kw) /\
    (forall g, plot_gamma = Some g -> cp_legend d = Named g).
Proof.
  intros upper beta fix_scale plot_gamma tk kw AK OE G O NO. destruct (start kw O NO) as (nk & own & rest & EN & EP & D).
  destruct (tk_columns_ok upper tk AK) as (cols & EC & IC & NC). specialize (NC OE). unfold plot_contours. rewrite EN. cbn [bind]. rewrite EP, EC. cbn [bind negb].
  destruct (draw_all beta own rest plot_gamma kw (flat_map (fun g => map (pair g) cols) contour_rates) G (D beta)) as (cs & E1 & E2 & E3). rewrite E1. cbn [bind].
  assert (L : forall g i, In (g, i) (flat_map (fun g => map (pair g) cols) contour_rates) <-> In g growth_rates /\ In i cols).
  { intros g i. rewrite in_flat_map. split.
    - intros (x & Hx & H). apply in_map_iff in H. destruct H as (y & E & Hy). assert (x = g) by congruence. assert (y = i) by congruence. subst. split; [exact Hx|exact Hy].
    - intros (H1 & H2). exists g. split; [exact H1|]. apply in_map. exact H2. }
  eexists. split; [reflexivity|]. split; [reflexivity|]. cbn [cp_curves cp_legend]. split; [|split; [|split]].
  - intros g i. rewrite <- IC. transitivity (In (g, i) (map (fun c => (v_rate c, v_kind c)) cs)).
    + rewrite in_map_iff. split; [intros (c & Hc & <- & <-); exists c; auto|intros (c & E & Hc); exists c; split; [exact Hc|split; congruence]].
    + rewrite E2, filter_In, L. destruct plot_gamma as [pg|]; cbn [fst].
      * rewrite Z.eqb_eq. split; [intros ((A & B) & ->); auto|intros (A & [X|X] & B); [discriminate X|split; [auto|congruence]]].
      * tauto.
  - rewrite E2. apply NoDup_filter. unfold contour_rates. cbn [flat_map]. rewrite app_nil_r.
    assert (P : forall g : Z, NoDup (map (pair g) cols)). { intro g. apply FinFun.Injective_map_NoDup; [intros x y E; congruence|exact NC]. }
    assert (Q : forall (l l' : list (Z * inst)), NoDup l -> NoDup l' -> (forall x, In x l -> ~ In x l') -> NoDup (l ++ l')).
    { clear. induction l as [|x l IH]; intros l' N1 N2 H; [exact N2|]. inversion N1; subst. cbn. constructor; [|apply IH; auto; intros y Hy; apply H; right; exact Hy].
      intro X. apply in_app_or in X. destruct X as [X|X]; [contradiction|]. exact (H x (or_introl eq_refl) X). }
    apply Q; [apply P|apply Q; [apply P|apply P|]|]; intros x Hx Hy; try apply in_app_or in Hy; rewrite !in_map_iff in *; destruct Hx as (y & <- & _); [|destruct Hy as [Hy|Hy]];
      destruct Hy as (z & E & _); discriminate E.
  - intros c Hc. destruct (E3 c Hc) as (X & Y & TL). split; [exact X|].
    assert (IG : In (v_rate c) growth_rates).
    { assert (M : In (v_rate c, v_kind c) (map (fun c => (v_rate c, v_kind c)) cs)) by exact (in_map (fun c => (v_rate c, v_kind c)) cs c Hc). rewrite E2, filter_In, L in M. apply M. }
    destruct (params_shape (v_rate c) (v_kind c) IG) as (pa & pb & pc & EPAR & _). unfold contour_values in Y. rewrite EPAR in Y. unfold params_of. rewrite EPAR.
    split; [rewrite Y; apply map_length|]. split; [|exact TL].
    intros n b Hn Hb. rewrite Y. rewrite nth_error_map, Hn. cbn [option_map]. f_equal. apply threshold_value. exact Hb.
  - intros g ->. reflexivity.
Qed.
Print Assumptions C229_contours.
(** The curves can be told apart: no two have the same colour and dashes. *)
Theorem C229_told_apart : forall g i g' i', In g growth_rates -> In g' growth_rates -> colour_of i = colour_of i' -> dashes_of g = dashes_of g' -> g = g' /\ i = i'.
Proof. intros g i g' i' [<-|[<-|[<-|[]]]] [<-|[<-|[<-|[]]]] C D; try discriminate D; (split; [reflexivity|]); destruct i, i'; cbn in C; congruence. Qed.
Print Assumptions C229_told_apart.
(** What is refused: names that are no text, unknown names, unknown growth rates, options given twice, and options of the curve itself. *)
Theorem C229_refusals : forall upper (beta : list XR) fix_scale plot_gamma tk kw,
  (~ wants_once line_alias kw -> plot_contours true upper beta fix_scale plot_gamma tk kw = Err TypeError) /\
  (wants_once line_alias kw -> forall l, tk = TkMany l -> In TkOther l -> plot_contours true upper beta fix_scale plot_gamma tk kw = Err TypeError) /\
  (wants_once line_alias kw -> forall l s, tk = TkMany l -> ~ In TkOther l -> In (TkText s) l -> (forall i, upper s <> inst_name i) ->
     plot_contours true upper beta fix_scale plot_gamma tk kw = Err ValueError) /\
  (wants_once line_alias kw -> all_kinds upper tk -> (exists i, kind_asked upper tk i) -> forall g, plot_gamma = Some g -> ~ In g growth_rates ->
     plot_contours true upper beta fix_scale plot_gamma tk kw = Err AssertionError) /\
  (wants_once line_alias kw -> all_kinds upper tk -> (exists i, kind_asked upper tk i) -> plot_gamma = None -> (exists k v, own_option k /\ wants line_alias kw k v) ->
     plot_contours true upper beta fix_scale plot_gamma tk kw = Err TypeError).
Proof.
  intros upper beta fix_scale plot_gamma tk kw. unfold plot_contours. split; [|split; [|split; [|split]]].
  - intros H. rewrite (norm_twice line_alias kw []) by (constructor || exact H). reflexivity.
  - intros O l -> H. destruct (norm_wants line_alias kw O) as (nk & EN & _). rewrite EN. cbn [bind]. destruct (pops contour_markers nk) as [own rest].
    unfold tk_columns. match goal with |- context[forallb ?f l] => assert (E : forallb f l = false) end.
    { apply not_true_iff_false. intros X. rewrite forallb_forall in X. specialize (X _ H). discriminate X. }
    rewrite E. reflexivity.
  - intros O l s -> NT H NU. destruct (norm_wants line_alias kw O) as (nk & EN & _). rewrite EN. cbn [bind]. destruct (pops contour_markers nk) as [own rest].
    unfold tk_columns. match goal with |- context[forallb ?f l] => assert (E : forallb f l = true) end.
    { apply forallb_forall. intros [t|] Hx; [reflexivity|contradiction]. }
    rewrite E. cbn [negb]. clear E NT.
    assert (M : mapM (fun n => match kind_named n with Some i => Ok i | None => Err ValueError end) (map (fun x => match x with TkText s => upper s | TkOther => "" end) l) = Err ValueError).
    { induction l as [|x l IH]; [destruct H|]. cbn [map mapM]. destruct (kind_named match x with TkText s => upper s | TkOther => "" end) as [i|] eqn:EK; [|reflexivity]. cbn [bind].
      destruct H as [->|H]; [apply kind_named_is in EK; destruct (NU i EK)|]. rewrite (IH H). reflexivity. }
    rewrite M. reflexivity.
  - intros O AK (i & KI) g -> NG. destruct (norm_wants line_alias kw O) as (nk & EN & _). rewrite EN. cbn [bind]. destruct (pops contour_markers nk) as [own rest].
    destruct (tk_columns_ok upper tk AK) as (cols & EC & IC & _). rewrite EC. cbn [bind negb]. apply IC in KI. destruct cols as [|c cols]; [destruct KI|].
    cbn [contour_rates flat_map map app draw_contours].
    assert (E : existsb (Z.eqb g) [-2; -3; -4]%Z = false).
    { apply not_true_iff_false. intros X. apply existsb_exists in X. destruct X as (y & Hy & E). apply Z.eqb_eq in E. subst y. apply NG. cbn in *. intuition. }
    rewrite E. reflexivity.
  - intros O AK (i & KI) -> (k & v & OK & WK). destruct (norm_wants line_alias kw O) as (nk & EN & ND & W). rewrite EN. cbn [bind]. destruct (pops contour_markers nk) as [own rest] eqn:EP.
    destruct (tk_columns_ok upper tk AK) as (cols & EC & IC & _). rewrite EC. cbn [bind negb]. apply IC in KI. destruct cols as [|c cols]; [destruct KI|].
    cbn [contour_rates flat_map map app draw_contours draw_contour].
    assert (MN : NoDup (map fst contour_markers)) by (cbn; repeat constructor; cbn; intuition discriminate).
    destruct (pops_styled contour_markers nk own rest MN ND EP) as (_ & _ & R & _).
    assert (HR : In (k, v) rest). { apply R. split; [apply W; exact WK|]. unfold own_option in OK. cbn in *. intuition congruence. }
    unfold call_with. match goal with |- context[existsb ?f rest] => assert (E : existsb f rest = true) end.
    { apply existsb_exists. exists (k, v). split; [exact HR|]. apply mem_str_In. unfold own_option in OK. cbn in *. intuition congruence. }
    rewrite E. reflexivity.
Qed.
Print Assumptions C229_refusals.
(** The required pandas (2.0 or later) has no iteritems: whatever is asked for, nothing is drawn. *)
Theorem C229_required_pandas_refuted : forall upper (beta : list XR) fix_scale plot_gamma tk kw, wants_once line_alias kw -> all_kinds upper tk ->
  plot_contours false upper beta fix_scale plot_gamma tk kw = Err AttributeError.
Proof.
  intros upper beta fix_scale plot_gamma tk kw O AK. unfold plot_contours. destruct (norm_wants line_alias kw O) as (nk & EN & _). rewrite EN. cbn [bind].
  destruct (pops contour_markers nk) as [own rest]. destruct (tk_columns_ok upper tk AK) as (cols & EC & _). rewrite EC. reflexivity.
Qed.
Print Assumptions C229_required_pandas_refuted.
Example C229_ex : all_kinds (fun s => s) (TkMany [TkText "MM"; TkText "OFI"]) /\ once_each (fun s => s) (TkMany [TkText "MM"; TkText "OFI"]) /\ wants_once line_alias [("ms", "4")] /\
  exists d, plot_contours true (fun s => s) [Fin 1] true (Some (-3)%Z) (TkMany [TkText "MM"; TkText "OFI"]) [("ms", "4")] = Ok d /\ List.length (cp_curves d) = 2%nat.
Proof.
  split; [intros x [<-|[<-|[]]]; [exists "MM", MM|exists "OFI", OFI]; auto|]. split; [cbn; repeat constructor; cbn; intuition discriminate|].
  split; [repeat constructor; intros []|]. eexists. split; [reflexivity|]. reflexivity.
Qed.
(** The legend of all curves is a table of four columns of five (row names, then a growth rate each): the marker in the row named
    AIC is MM's, in every column. *)
Theorem C229_table_legend_refuted : forall upper (beta : list XR) fix_scale, exists d es,
  plot_contours true upper beta fix_scale None TkNone [] = Ok d /\ cp_legend d = Table es /\
  (exists h, nth_error es 1 = Some ("$\mathrm{AIC}$", h)) /\
  forall column, In column [1; 2; 3]%nat -> exists l c, nth_error es (5 * column + 1) = Some (l, Some c) /\ In c (cp_curves d) /\ v_kind c = MM.
Proof.
  intros upper beta fix_scale. eexists _, _. split; [cbn -[contour_values]; reflexivity|]. split; [reflexivity|]. split; [eexists; reflexivity|].
  intros column [<-|[<-|[<-|[]]]]; eexists _, _; (split; [reflexivity|]; split; [|reflexivity]); cbn [cp_curves In]; auto 15.
Qed.
Print Assumptions C229_table_legend_refuted.

(** The table itself: its texts, and which curve each of its cells shows (nothing if the curve was not asked for). *)
Theorem C229_table_cells : forall upper (beta : list XR) fix_scale tk kw d, plot_contours true upper beta fix_scale None tk kw = Ok d -> exists es,
  cp_legend d = Table es /\
  map fst es = ["" ; "$\mathrm{AIC}$"; "$\mathrm{FMW}$"; "$\mathrm{MM}$"; "$\mathrm{OFI}$"; "$-2$"; ""; ""; ""; ""; "$-3$"; ""; ""; ""; ""; "$-4$"; ""; ""; ""; ""] /\
  (forall n, In n [0; 1; 2; 3; 4; 5; 10; 15]%nat -> nth_error (map snd es) n = Some None) /\
  forall column g row i, In (column, g) [(1%nat, (-2)%Z); (2%nat, (-3)%Z); (3%nat, (-4)%Z)] -> In (row, i) [(1%nat, MM); (2%nat, AIC); (3%nat, FMW); (4%nat, OFI)] ->
    exists o, nth_error (map snd es) (5 * column + row) = Some o /\
      match o with Some c => In c (cp_curves d) /\ v_rate c = g /\ v_kind c = i | None => forall c, In c (cp_curves d) -> v_rate c = g -> v_kind c <> i end.
Proof.
  intros upper beta fix_scale tk kw d H. unfold plot_contours in H. destruct (norm line_alias kw []) as [nk|]; cbn [bind] in H; [|discriminate H]. destruct (pops contour_markers nk) as [own rest].
  destruct (tk_columns upper tk) as [cols|]; cbn [bind negb] in H; [|discriminate H]. destruct (draw_contours beta own rest None (flat_map (fun g => map (pair g) cols) contour_rates)) as [cs|]; cbn [bind] in H; [|discriminate H].
  assert (OI : forall B (a b : B), Ok a = Ok b -> a = b) by (intros; congruence). apply OI in H. subst d. cbn [cp_legend cp_curves]. eexists. split; [reflexivity|]. split; [reflexivity|].
  split; [intros n [<-|[<-|[<-|[<-|[<-|[<-|[<-|[<-|[]]]]]]]]]; reflexivity|].
  intros column g row i Hc Hr. exists (image cs g i). split.
  - destruct Hc as [E|[E|[E|[]]]]; injection E as <- <-; destruct Hr as [E|[E|[E|[E|[]]]]]; injection E as <- <-; reflexivity.
  - unfold image. destruct (find _ (rev cs)) as [c|] eqn:F.
    + apply find_some in F as [I F]. apply andb_true_iff in F as [F1 F2]. apply Z.eqb_eq in F1. apply String.eqb_eq in F2. split; [apply in_rev, I|]. split; [exact F1|]. destruct (v_kind c), i; try reflexivity; discriminate F2.
    + intros c I E K. pose proof (find_none _ _ F c (proj1 (in_rev cs c) I)) as X. cbv beta in X. rewrite E, K, Z.eqb_refl, String.eqb_refl in X. discriminate X.
Qed.
Print Assumptions C229_table_cells.
