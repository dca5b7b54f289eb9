(** C241 (the history of a TrendFit). *)
From Coq Require Import List String Bool ZArith Lia Permutation.
From Verif Require Import Py TrendMake.
Import ListNotations.
Open Scope string_scope.
Open Scope list_scope.

(** A TrendFit can be made exactly from a DataFrame and two fit classes; the 1d class may be left out and is then Gaussian. *)
Theorem C241_made_from : forall g one trend, (exists o, new_tfit g one trend = Ok o) <->
  (exists id cols, g = GTable id cols) /\ (one = GNone \/ exists n, one = GClass n true) /\ exists n, trend = GClass n true.
Proof.
  intros g one trend. unfold new_tfit, classes. split.
  - intros [o H]. destruct g as [id cols|]; [|discriminate]. split; [eauto|]. destruct one as [| |n [|]], trend as [| |m [|]]; try discriminate H; eauto.
  - intros [[id [cols ->]] [[->|[n ->]] [m ->]]]; eexists; reflexivity.
Qed.
Theorem C241_default_is_gaussian : forall id cols n o, new_tfit (GTable id cols) GNone (GClass n true) = Ok o -> tm_1d o = "Gaussian" /\ tm_cls o = n.
Proof. intros id cols n o H. cbn in H. injection H as <-. auto. Qed.

Section Histories.
  Variable refuses : string -> Z -> Z -> option exn.
  Variable fits : string -> Z -> Z -> bool.
  Notation step := (do_call refuses fits).
  Notation run := (after refuses fits).

  (** The 1d fits are all made or none: one per column, in order, if the class refuses none. *)
  Lemma made_ok o l : made refuses o = Ok l -> l = map (fun c => mkFit1d c (tm_table o) (tm_1d o) Unfitted) (tm_cols o).
  Proof.
    unfold made. generalize (tm_cols o). intro cs. revert l. induction cs as [|c cs IH]; intros l H; cbn [mapM] in H; [injection H as <-; reflexivity|].
    destruct (refuses (tm_1d o) (tm_table o) c); [discriminate H|]. cbn [bind] in H. destruct (mapM _ cs) as [r|]; [|discriminate H]. cbn [bind] in H. injection H as <-. cbn [map]. f_equal. apply IH. reflexivity.
  Qed.
  Theorem C241_made_when_accepted : forall o, fst (step o MakeFfuncs) = None <-> forall c, In c (tm_cols o) -> refuses (tm_1d o) (tm_table o) c = None.
  Proof.
    intro o. cbn [do_call]. unfold made. generalize (tm_cols o). intro cs. induction cs as [|c cs IH]; [split; [intros _ c []|reflexivity]|]. cbn [mapM].
    destruct (refuses (tm_1d o) (tm_table o) c) as [e|] eqn:E; cbn [bind].
    - split; [discriminate|]. intro H. specialize (H c (or_introl eq_refl)). congruence.
    - destruct (mapM _ cs) as [r|e]; cbn [bind fst] in *; (split; [intro H|intro H]); try reflexivity; try discriminate.
      + intros d [<-|Hd]; [exact E|]. apply IH; [reflexivity|exact Hd].
      + apply IH. intros d Hd. apply H. right. exact Hd.
  Qed.
  (** Which exception it is: AssertionError for what is no table, TypeError for what is no fit class, the first exception of the class for a
      column, AttributeError when there are no fits yet or one has not succeeded, ValueError for a trend through no fits at all. *)
  Theorem C241_exceptions : forall o c e, fst (step o c) = Some e ->
    (c = SetTable GNoTable /\ e = AssertionError) \/
    ((exists one trend, c = SetClasses one trend /\ ~ ((one = GNone \/ exists n, one = GClass n true) /\ exists n, trend = GClass n true)) /\ e = TypeError) \/
    (c = MakeFfuncs /\ exists before col rest, tm_cols o = before ++ col :: rest /\ refuses (tm_1d o) (tm_table o) col = Some e /\ forall d, In d before -> refuses (tm_1d o) (tm_table o) d = None) \/
    ((c = MakeFits \/ c = MakeTrend) /\ tm_ffuncs o = None /\ e = AttributeError) \/
    (c = MakeTrend /\ (exists l f, tm_ffuncs o = Some l /\ In f l /\ f_fate f <> Fitted) /\ e = AttributeError) \/
    (c = MakeTrend /\ tm_ffuncs o = Some [] /\ e = ValueError).
  Proof.
    intros o c e H. destruct c as [[id cols|]|one trend| | |]; cbn [do_call fst] in H; try discriminate H.
    - left. split; [reflexivity|congruence].
    - right. left. unfold classes in H. split; [exists one, trend; split; [reflexivity|]|]; destruct one as [| |n [|]], trend as [| |m [|]]; cbn in H; try discriminate H; try congruence;
        intros [[X|[? X]] [? Y]]; discriminate.
    - right. right. left. split; [reflexivity|]. unfold made in H. revert H. generalize (tm_cols o). intro cs. induction cs as [|d cs IH]; intro H; [discriminate H|]. cbn [mapM] in H.
      destruct (refuses (tm_1d o) (tm_table o) d) as [x|] eqn:E; cbn [bind] in H.
      + exists [], d, cs. split; [reflexivity|]. split; [cbn in H; congruence|intros ? []].
      + destruct (mapM _ cs) as [r|x] eqn:R; cbn [bind fst] in *; [discriminate H|]. destruct (IH H) as [b [u [r [-> [U V]]]]]. exists (d :: b), u, r. split; [reflexivity|]. split; [exact U|]. intros v [<-|Hv]; [exact E|exact (V v Hv)].
    - right. right. right. left. destruct (tm_ffuncs o); [discriminate H|]. split; [auto|]. split; [reflexivity|cbn in H; congruence].
    - destruct (tm_ffuncs o) as [l|]; [|right; right; right; left; split; [auto|]; split; [reflexivity|cbn in H; congruence]].
      destruct (forallb has_popt l) eqn:F; cbn [negb] in H.
      + destruct l as [|f l]; [|discriminate H]. right. right. right. right. right. split; [reflexivity|]. split; [reflexivity|cbn in H; congruence].
      + right. right. right. right. left. split; [reflexivity|]. split; [|cbn in H; congruence]. exists l. clear H. induction l as [|f l IH]; [discriminate F|]. cbn [forallb] in F. destruct (has_popt f) eqn:P; cbn [andb] in F.
        * destruct (IH F) as [g [_ [G N]]]. exists g. split; [reflexivity|]. split; [right; exact G|exact N].
        * exists f. split; [reflexivity|]. split; [left; reflexivity|]. unfold has_popt in P. destruct (f_fate f); congruence.
  Qed.
  Theorem C241_new_exceptions : forall g one trend e, new_tfit g one trend = Err e -> (g = GNoTable /\ e = AssertionError) \/ (g <> GNoTable /\ e = TypeError).
  Proof.
    intros g one trend e. unfold new_tfit, classes. destruct g as [id cols|]; intro H; [right; split; [discriminate|]|left; split; [reflexivity|congruence]].
    destruct one as [| |n [|]], trend as [| |m [|]]; cbn in H; congruence.
  Qed.

  (** A call that raises changes nothing. *)
  Theorem C241_rejected_calls_change_nothing : forall o c e, fst (step o c) = Some e -> snd (step o c) = o.
  Proof.
    intros o c e. destruct c as [[id cols|]|one trend| | |]; cbn [do_call fst snd]; try discriminate; try reflexivity.
    - destruct (classes one trend) as [[a b]|x]; cbn; [discriminate|reflexivity].
    - destruct (made refuses o); cbn; [discriminate|reflexivity].
    - destruct (tm_ffuncs o); cbn; [discriminate|reflexivity].
    - destruct (tm_ffuncs o) as [l|]; [|reflexivity]. destruct (negb (forallb has_popt l)); [reflexivity|]. destruct l; cbn; [reflexivity|discriminate].
  Qed.

  Lemma run_app o h k : run o (h ++ k) = run (run o h) k.
  Proof. apply fold_left_app. Qed.
  Definition origin (l : list fit1d) (table : Z) (cls : string) (cols : list Z) : Prop := forall f, In f l -> f_table f = table /\ f_cls f = cls /\ In (f_col f) cols.
  Lemma step_keeps o c t n cols l : c <> MakeFfuncs -> tm_ffuncs o = Some l -> origin l t n cols -> exists l', tm_ffuncs (snd (step o c)) = Some l' /\ origin l' t n cols.
  Proof.
    intros N E O. destruct c as [[id cs|]|one trend| | |]; cbn [do_call]; try (exists l; split; [exact E|exact O]).
    - destruct (classes one trend) as [[a b]|x]; exists l; (split; [exact E|exact O]).
    - congruence.
    - rewrite E. cbn [snd tm_ffuncs]. eexists. split; [reflexivity|]. intros f Hf. apply filter_In in Hf. destruct Hf as [Hf _]. apply in_map_iff in Hf. destruct Hf as [g [<- Hg]]. exact (O g Hg).
    - rewrite E. destruct (negb (forallb has_popt l)); [exists l; auto|]. destruct l; cbn [snd tm_ffuncs]; eexists; (split; [first [exact E|reflexivity]|exact O]).
  Qed.
  (** Whatever is done later (new tables, new classes, fits, trends, rejected calls), the 1d fits keep the table and the class that were set
      when they were made: new settings wait for the next make_ffunc1ds. *)
  Theorem C241_fits_come_from_the_last_make : forall o before later, let at_make := run o before in fst (step at_make MakeFfuncs) = None -> ~ In MakeFfuncs later ->
    exists l, tm_ffuncs (run o (before ++ MakeFfuncs :: later)) = Some l /\
      forall f, In f l -> f_table f = tm_table at_make /\ f_cls f = tm_1d at_make /\ In (f_col f) (tm_cols at_make).
  Proof.
    intros o before later at_make OK N. rewrite run_app. fold at_make. unfold after. cbn [fold_left]. fold (run (snd (step at_make MakeFfuncs)) later).
    assert (B : exists l, tm_ffuncs (snd (step at_make MakeFfuncs)) = Some l /\ origin l (tm_table at_make) (tm_1d at_make) (tm_cols at_make)).
    { cbn [do_call] in *. destruct (made refuses at_make) as [l0|] eqn:M; [|discriminate OK]. apply made_ok in M. subst l0. cbn [snd tm_ffuncs]. eexists. split; [reflexivity|]. intros f Hf. apply in_map_iff in Hf. destruct Hf as [c [<- Hc]]. auto. }
    revert N B. generalize (snd (step at_make MakeFfuncs)). generalize (tm_table at_make) (tm_1d at_make) (tm_cols at_make). intros t n cols.
    induction later as [|c later IH]; intros u N [l [E O]]; [exists l; auto|]. unfold after. cbn [fold_left]. fold (run (snd (step u c)) later). apply IH; [intro X; apply N; right; exact X|].
    apply (step_keeps u c t n cols l); [intros ->; apply N; left; reflexivity|exact E|exact O].
  Qed.

  (** After making and fitting, every column of the table is in exactly one of ffuncs and bad_fits: in ffuncs if its fit succeeded. *)
  Lemma split_perm {X} (p : X -> bool) l : Permutation (filter (fun x => negb (p x)) l ++ filter p l) l.
  Proof.
    induction l as [|x l IH]; [reflexivity|]. cbn [filter]. destruct (p x); cbn [negb]; [|cbn [app]; constructor; exact IH].
    etransitivity; [symmetry; apply Permutation_middle|]. constructor. exact IH.
  Qed.
  Theorem C241_columns_split : forall o, fst (step o MakeFfuncs) = None -> exists good bad,
    tm_ffuncs (run o [MakeFfuncs; MakeFits]) = Some good /\ tm_bad (run o [MakeFfuncs; MakeFits]) = Some bad /\
    Permutation (map f_col (good ++ bad)) (tm_cols o) /\
    (forall f, In f good -> fits (tm_1d o) (tm_table o) (f_col f) = true) /\ (forall f, In f bad -> fits (tm_1d o) (tm_table o) (f_col f) = false).
  Proof.
    intros o OK. unfold after. cbn [fold_left do_call] in *. destruct (made refuses o) as [l0|] eqn:M; [|discriminate OK]. apply made_ok in M. subst l0. cbn [snd tm_ffuncs tm_bad tm_table tm_cols tm_1d tm_cls tm_trend].
    eexists. eexists. split; [reflexivity|]. split; [reflexivity|]. split; [|split].
    - etransitivity; [apply Permutation_map, split_perm|]. rewrite !map_map. cbn [fitted f_col]. rewrite map_id. reflexivity.
    - intros f Hf. apply filter_In in Hf. destruct Hf as [Hf P]. rewrite map_map in Hf. apply in_map_iff in Hf. destruct Hf as [c [<- _]]. unfold has_failed, fitted in *. cbn [f_fate f_cls f_table f_col] in *. destruct (fits _ _ _); [reflexivity|discriminate P].
    - intros f Hf. apply filter_In in Hf. destruct Hf as [Hf P]. rewrite map_map in Hf. apply in_map_iff in Hf. destruct Hf as [c [<- _]]. unfold has_failed, fitted in *. cbn [f_fate f_cls f_table f_col] in *. destruct (fits _ _ _); [discriminate P|reflexivity].
  Qed.

  (** A trend function can be made exactly when there are 1d fits and all of them have been fitted successfully; it then is of the trend class set at
      that moment and has been given all of them. *)
  Theorem C241_trend : forall o, fst (step o MakeTrend) = None <-> exists l, tm_ffuncs o = Some l /\ l <> [] /\ forall f, In f l -> f_fate f = Fitted.
  Proof.
    intro o. cbn [do_call]. destruct (tm_ffuncs o) as [l|]; [|split; [discriminate|intros [l [H _]]; discriminate]].
    destruct (forallb has_popt l) eqn:E; cbn [negb].
    - rewrite forallb_forall in E. assert (F : forall f, In f l -> f_fate f = Fitted) by (intros f Hf; specialize (E f Hf); unfold has_popt in E; destruct (f_fate f); congruence).
      destruct l as [|f l]; cbn [fst]; [split; [discriminate|intros [l [H [N _]]]; congruence]|]. split; [intros _; exists (f :: l); split; [reflexivity|split; [discriminate|exact F]]|reflexivity].
    - cbn [fst]. split; [discriminate|]. intros [l' [H [_ F]]]. assert (l' = l) by congruence. subst l'. exfalso. assert (E' : forallb has_popt l = true) by (apply forallb_forall; intros f Hf; unfold has_popt; rewrite (F f Hf); reflexivity). congruence.
  Qed.
  Theorem C241_trend_given : forall o, fst (step o MakeTrend) = None -> exists l, tm_ffuncs o = Some l /\ tm_trend (snd (step o MakeTrend)) = Some (tm_cls o, l).
  Proof.
    intro o. cbn [do_call]. destruct (tm_ffuncs o) as [l|]; [|discriminate]. destruct (negb (forallb has_popt l)); [discriminate|]. destruct l as [|f l]; [discriminate|]. intros _. exists (f :: l). split; reflexivity.
  Qed.

  (** Only fitting changes bad_fits and only make_trend_func the trend function. *)
  Theorem C241_untouched : forall o c, (c <> MakeFits -> tm_bad (snd (step o c)) = tm_bad o) /\ (c <> MakeTrend -> tm_trend (snd (step o c)) = tm_trend o).
  Proof.
    intros o c. split; intro N; destruct c as [[id cs|]|one trend| | |]; cbn [do_call]; try congruence; try reflexivity.
    - destruct (classes one trend) as [[a b]|x]; reflexivity.
    - destruct (made refuses o); reflexivity.
    - destruct (tm_ffuncs o) as [l|]; [|reflexivity]. destruct (negb (forallb has_popt l)); [reflexivity|]. destruct l; reflexivity.
    - destruct (classes one trend) as [[a b]|x]; reflexivity.
    - destruct (made refuses o); reflexivity.
    - destruct (tm_ffuncs o) as [l|]; reflexivity.
  Qed.
End Histories.

(** bad_fits is not cleared by make_ffunc1ds: with new data, a column whose new fit is in ffuncs can still be listed among the bad ones. *)
Theorem C241_disjoint_refuted : exists refuses fits o h good bad f g, new_tfit (GTable 0 [1; 2]%Z) GNone (GClass "Line" true) = Ok o /\
  tm_ffuncs (after refuses fits o h) = Some good /\ tm_bad (after refuses fits o h) = Some bad /\ In f good /\ In g bad /\ f_col f = f_col g /\ f_table f <> f_table g.
Proof.
  exists (fun _ _ _ => None), (fun _ t c => negb (Z.eqb t 0 && Z.eqb c 2)). eexists. exists [MakeFfuncs; MakeFits; SetTable (GTable 1 [1; 2]%Z); MakeFfuncs]. do 2 eexists.
  exists (mkFit1d 2 1 "Gaussian" Unfitted), (mkFit1d 2 0 "Gaussian" Failed). split; [reflexivity|]. split; [vm_compute; reflexivity|]. split; [vm_compute; reflexivity|]. cbn. repeat split; auto; discriminate.
Qed.
Example C241_case : exists o, new_tfit (GTable 0 [1; 2; 3]%Z) GNone (GClass "Line" true) = Ok o /\
  tm_trend (after (fun _ _ _ => None) (fun _ _ c => negb (Z.eqb c 2)) o [MakeTrend; MakeFfuncs; MakeTrend; SetClasses (GClass "Moyal" true) GNoClass; MakeFits; SetTable (GTable 5 []); MakeTrend])
  = Some ("Line", [mkFit1d 1 0 "Gaussian" Fitted; mkFit1d 3 0 "Gaussian" Fitted]).
Proof. eexists. split; [reflexivity|]. vm_compute. reflexivity. Qed.
