(** Theorems added after mutation runs (see seeded/LOG.jsonl), eleventh group. *)
From Coq Require Import Reals List String Ascii Bool Arith ZArith Lia.
From Verif Require Import Py PyStr Num Labels MoreLabels FitCore FitFuncs TrendFit FitPlot Select SelectText TrendPlot TexInfo TexReport
  LabelsThms SelectThms SelectTextThms TrendPlotThms MoreLabelsThms TexInfoThms TexReportThms.
Import ListNotations.
Open Scope list_scope.
Open Scope string_scope.

(* ---------------------------------------------------------------- C210 *)
(** A property of the line can be asked for under its short name. *)
Theorem C210_short_names kw short full v :
  In (short, full) [("aa", "antialiased"); ("c", "color"); ("ds", "drawstyle"); ("ls", "linestyle"); ("lw", "linewidth"); ("mec", "markeredgecolor");
     ("mew", "markeredgewidth"); ("mfc", "markerfacecolor"); ("mfcalt", "markerfacecoloralt"); ("ms", "markersize")] ->
  once kw -> In (short, v) kw -> exists st, popt_style true kw = Ok st /\ In (full, v) st.
Proof.
  intros HS HO HI. destruct (C210_line_options kw HO) as (st & E & _ & A & _). exists st. split; [exact E|]. apply A. exists short. split; [exact HI|].
  cbn [In] in HS. repeat (destruct HS as [HS|HS]; [assert (X : short = fst (short, full)) by reflexivity; assert (Y : full = snd (short, full)) by reflexivity;
    rewrite <- HS in X, Y; cbn in X, Y; subst short full; reflexivity|]). contradiction.
Qed.
Print Assumptions C210_short_names.
(** The residuals of the trend fit: three options are passed on, as asked for or as documented; nothing else is. *)
Theorem C210_residual_options kw : NoDup (map fst kw) ->
  exists d a u, trend_resid_style kw = [("drawstyle", d); ("annotate_kwargs", a); ("used_kwargs", u)]
  /\ (In ("drawstyle", d) kw \/ d = "default" /\ ~ In "drawstyle" (map fst kw))
  /\ (In ("annotate_kwargs", a) kw \/ a = "xloc=0.5, yloc=0.1, va=bottom" /\ ~ In "annotate_kwargs" (map fst kw))
  /\ (In ("used_kwargs", u) kw \/ u = "color=k" /\ ~ In "used_kwargs" (map fst kw)).
Proof.
  intros ND. unfold trend_resid_style.
  destruct (pop "annotate_kwargs" "xloc=0.5, yloc=0.1, va=bottom" kw) as [a k1] eqn:E1. destruct (pop "used_kwargs" "color=k" k1) as [u k2] eqn:E2. destruct (pop "drawstyle" "default" k2) as [d k3] eqn:E3.
  destruct (pop_find "annotate_kwargs" "xloc=0.5, yloc=0.1, va=bottom" kw ND) as (A1 & A2 & A3 & A4). rewrite E1 in *. cbn [fst snd] in *.
  destruct (pop_find "used_kwargs" "color=k" k1 A4) as (B1 & B2 & B3 & B4). rewrite E2 in *. cbn [fst snd] in *.
  destruct (pop_find "drawstyle" "default" k2 B4) as (C1 & C2 & _ & _). rewrite E3 in *. cbn [fst snd] in *.
  assert (HAS : forall k (l : list (string * string)), (exists v, In (k, v) l) \/ (forall v, ~ In (k, v) l)).
  { intros k l. destruct (in_dec string_dec k (map fst l)) as [H|H].
    - left. apply in_map_iff in H. destruct H as ([x v] & E & H). cbn in E. subst x. eauto.
    - right. intros v Hv. apply H. exact (in_map fst _ _ Hv). }
  assert (NO : forall k (l : list (string * string)), (forall v, ~ In (k, v) l) -> ~ In k (map fst l)).
  { intros k l H X. apply in_map_iff in X. destruct X as ([x v] & E & X). cbn in E. subst x. exact (H v X). }
  exists d, a, u. split; [reflexivity|]. split; [|split].
  - destruct (HAS "drawstyle" k2) as [[v Hv]|H].
    + left. rewrite (C1 v Hv). apply B3 in Hv. destruct Hv as [Hv _]. apply A3 in Hv. apply Hv.
    + right. split; [apply C2, H|]. apply NO. intros v Hv. apply (H v). apply B3. split; [|discriminate]. apply A3. split; [exact Hv|discriminate].
  - destruct (HAS "annotate_kwargs" kw) as [[v Hv]|H]; [left; rewrite (A1 v Hv); exact Hv|right; split; [apply A2, H|apply NO, H]].
  - destruct (HAS "used_kwargs" k1) as [[v Hv]|H].
    + left. rewrite (B1 v Hv). apply A3 in Hv. apply Hv.
    + right. split; [apply B2, H|]. apply NO. intros v Hv. apply (H v). apply A3. split; [exact Hv|discriminate].
Qed.
Print Assumptions C210_residual_options.
Example C210_residual_ex : trend_resid_style [("drawstyle", "steps"); ("color", "r")]
  = [("drawstyle", "steps"); ("annotate_kwargs", "xloc=0.5, yloc=0.1, va=bottom"); ("used_kwargs", "color=k")].
Proof. reflexivity. Qed.

(* ---------------------------------------------------------------- C208, C209 *)
(** Without any good fit there is no table of parameters: every plot of them is a KeyError. *)
Theorem C208_no_fits t logx band ykey wkey over used : popt_1d (T := XR) t = Ok [] -> over <> Some None ->
  plot_all_popt_1d true logx false band ykey wkey over used t = Err KeyError
  /\ in_fit ykey wkey used t = Err KeyError.
Proof.
  intros H NO. unfold plot_all_popt_1d, in_fit. rewrite H. cbn [bind negb column rmap]. split; [|reflexivity].
  destruct over as [[k|]|]; [|contradiction|]; destruct band; reflexivity.
Qed.
Print Assumptions C208_no_fits.
(** The figures of the 1d fits can be made only after the trend was fitted. *)
Theorem C209_before_trend ykey wkey t p yv wv : popt_1d (T := XR) t = Ok p -> column ykey p = Ok yv -> column wkey p = Ok wv ->
  in_fit ykey wkey None t = Err AttributeError.
Proof. intros H1 H2 H3. unfold in_fit. rewrite H1. cbn [bind]. rewrite H2. cbn [bind]. rewrite H3. reflexivity. Qed.
Print Assumptions C209_before_trend.

(* ---------------------------------------------------------------- C214 *)
(** A label that the data does not have is a KeyError. *)
Theorem C214_unknown_label lx ly (data : list (row (T := XR))) d i : In i (s_indices d) -> ~ In i (map fst data) ->
  scatter_sample lx ly data d = Err KeyError.
Proof.
  intros HI HN. assert (LOC : forall j e, loc_row data j = Err e -> e = KeyError).
  { intros j e. clear. induction data as [|r l IH]; cbn [loc_row]; [congruence|]. destruct (Z.eqb (fst r) j); [discriminate|exact IH]. }
  assert (NF : loc_row data i = Err KeyError).
  { clear - HN. induction data as [|r l IH]; cbn [loc_row]; [reflexivity|]. cbn in HN. destruct (Z.eqb_spec (fst r) i) as [E|E]; [tauto|apply IH; tauto]. }
  unfold scatter_sample. assert (M : mapM (loc_row data) (s_indices d) = Err KeyError).
  { induction (s_indices d) as [|j l IH]; [contradiction|]. cbn [mapM]. destruct HI as [->|HI]; [rewrite NF; reflexivity|].
    destruct (loc_row data j) as [p|e] eqn:E; [|rewrite (LOC j e E); reflexivity]. cbn [bind]. rewrite (IH HI). reflexivity. }
  rewrite M. reflexivity.
Qed.
Print Assumptions C214_unknown_label.
Example C210_short_ex : once [("lw", "2"); ("color", "r")] /\ In ("lw", "2") [("lw", "2"); ("color", "r")].
Proof. split; [|left; reflexivity]. unfold once. vm_compute. repeat constructor; cbn; intuition discriminate. Qed.

Example C208_no_fits_ex : popt_1d (T := XR) (mkTrend [] []) = Ok [] /\ (None : option (option string)) <> Some None.
Proof. split; [reflexivity|discriminate]. Qed.
Example C214_unknown_ex : In 7%Z (s_indices (T := XR) (mkSampled [7%Z] [] 1)) /\ ~ In 7%Z (map fst ([] : list (row (T := XR)))).
Proof. split; [left; reflexivity|intros []]. Qed.

(* ---------------------------------------------------------------- C215 *)
Lemma inf_math x : replace "inf" "\infty" (math x) = math (replace "inf" "\infty" x).
Proof.
  unfold math. change ("$ " ++ x ++ " $")%string with ("$" ++ String " " (x ++ String " " "$"))%string.
  rewrite !replace_sep by (discriminate || reflexivity). reflexivity.
Qed.
Lemma inf_join l : replace "inf" "\infty" (join nl l) = join nl (map (replace "inf" "\infty") l).
Proof. unfold nl. apply replace_join; [discriminate|reflexivity]. Qed.
Lemma replace_no c old n s : has_char c n = false -> has_char c s = false -> has_char c (replace old n s) = false.
Proof.
  intros HN HS. unfold replace. generalize 0%nat. induction s as [|d s IH]; intros k; [reflexivity|]. cbn [has_char] in HS. apply orb_false_elim in HS. destruct HS as [A B].
  cbn [replace_go]. destruct k as [|k]; [|apply IH, B]. destruct (String.prefix old (String d s)).
  - rewrite has_char_app, HN. apply IH, B.
  - cbn [has_char]. rewrite A. apply IH, B.
Qed.
Lemma suffix_block suf l : suf <> "" -> has_char newline suf = false -> l <> [] -> block l ->
  exists k, k <> [] /\ block k /\ join nl k = (join nl l ++ suf)%string.
Proof.
  intros NS HS N B. induction l as [|x [|y l] IH]; [contradiction| |].
  - exists [(x ++ suf)%string]. split; [discriminate|]. split; [|reflexivity]. intros z [<-|[]]. destruct (B x (or_introl eq_refl)) as [X1 X2].
    split; [destruct x; [contradiction|discriminate]|rewrite has_char_app, X2, HS; reflexivity].
  - destruct IH as (k & K1 & K2 & K3); [discriminate|intros z Z; apply B; right; exact Z|]. exists (x :: k). split; [discriminate|]. split.
    + intros z [<-|Z]; [apply B; left; reflexivity|apply K2, Z].
    + destruct k as [|w k]; [contradiction|]. change (join nl (x :: w :: k)) with (x ++ nl ++ join nl (w :: k))%string. rewrite K3.
      change (join nl (x :: y :: l)) with (x ++ nl ++ join nl (y :: l))%string. rewrite !sapp_assoc. reflexivity.
Qed.
Lemma prefix_block pre l : has_char newline pre = false -> l <> [] -> block l ->
  exists k, k <> [] /\ block k /\ join nl k = (pre ++ join nl l)%string.
Proof.
  intros HS N B. destruct l as [|x l]; [contradiction|]. exists ((pre ++ x)%string :: l). split; [discriminate|]. split.
  - intros z [<-|Z]; [|apply B; right; exact Z]. destruct (B x (or_introl eq_refl)) as [X1 X2]. split; [destruct pre; [exact X1|discriminate]|rewrite has_char_app, X2, HS; reflexivity].
  - destruct l; [reflexivity|]. cbn [join]. rewrite !sapp_assoc. reflexivity.
Qed.
(** The relative errors, a table of several lines, come after the parameters and a blank line, all of them between two dollars. *)
Theorem C215_relative_errors o r table : op_rel o = true -> op_pow10 o = false -> op_strip o = false -> op_paper o = false ->
  op_npts o = false -> op_chisq o = false -> op_rsq o = false ->
  (forall l, In l (split_on newline (rp_function r)) -> l <> "") -> (forall p, In p (rp_popt r) -> has_char newline (popt_line p) = false) ->
  table <> [] -> (forall l, In l table -> l <> "" /\ has_char newline l = false /\ has_char "$" l = false /\ Labels.contains "inf" l = false) ->
  rp_rel r = join nl table ->
  let line x := math (replace "inf" "\infty" (strip_dollars x)) in
  parameter_info o r =
    (join nl (map line (split_on newline (rp_function r)) ++ map (fun p => line (popt_line p)) (rp_popt r)) ++ nl ++ nl ++ "$ " ++ join nl table ++ " $")%string.
Proof.
  intros H1 H2 H3 H4 H5 H6 H7 HF HP NT HT HR line. unfold parameter_info, raw_info, npts_line. rewrite H1, H2, H3, H4, H5, H6, H7, HR. cbn [andb orb negb app].
  set (fs := split_on newline (rp_function r)) in *. rewrite inf_join, !map_app, !map_map. cbn [map].
  assert (NTJ : join nl table <> "").
  { destruct table as [|x [|y l]]; [contradiction| |]; destruct (HT x (or_introl eq_refl)) as [X _]; [exact X|]. cbn [join]. destruct x; [contradiction|discriminate]. }
  assert (FL : forall x, x <> "" -> replace "inf" "\infty" (final_line x) = line x).
  { intros x Hx. unfold final_line. apply String.eqb_neq in Hx. rewrite Hx. change ("$ " ++ strip_dollars x ++ " $")%string with (math (strip_dollars x)). apply inf_math. }
  assert (SJ : strip_dollars (join nl table) = join nl table).
  { apply strip_id. clear - HT. induction table as [|x [|y l] IH]; [reflexivity|apply HT; left; reflexivity|].
    change (join nl (x :: y :: l)) with (x ++ nl ++ join nl (y :: l))%string. rewrite !has_char_app, IH by (intros z Z; apply HT; right; exact Z).
    destruct (HT x (or_introl eq_refl)) as (_ & _ & X & _). rewrite X. reflexivity. }
  assert (IJ : replace "inf" "\infty" (join nl table) = join nl table).
  { rewrite inf_join. f_equal. rewrite <- (map_id table) at 2. apply map_ext_in. intros x Hx. apply replace_none. apply HT, Hx. }
  rewrite (FL (join nl table) NTJ). unfold line at 1. rewrite SJ, IJ.
  replace (map (fun x => replace "inf" "\infty" (final_line x)) fs) with (map line fs) by (apply map_ext_in; intros x Hx; symmetry; apply FL, HF, Hx).
  replace (map (fun x => replace "inf" "\infty" (final_line (popt_line x))) (rp_popt r)) with (map (fun p => line (popt_line p)) (rp_popt r))
    by (apply map_ext_in; intros p Hp; symmetry; apply FL; unfold popt_line; destruct (fst p); discriminate).
  change (replace "inf" "\infty" (final_line "")) with nl.
  assert (BT : block table) by (intros x Hx; destruct (HT x Hx) as (A & B & _); split; assumption).
  destruct (prefix_block "$ " table eq_refl NT BT) as (k1 & K1 & K2 & K3). destruct (suffix_block " $" k1 ltac:(discriminate) eq_refl K1 K2) as (k & K4 & K5 & K6).
  assert (KE : join nl k = math (join nl table)) by (rewrite K6, K3, sapp_assoc; reflexivity).
  set (L := (map line fs ++ map (fun p => line (popt_line p)) (rp_popt r))%list).
  assert (FN : L <> []). { unfold L. destruct fs eqn:X; [exfalso; exact (split_on_nonempty _ _ X)|discriminate]. }
  assert (LN : forall x, has_char newline x = false -> line x <> "" /\ has_char newline (line x) = false).
  { intros x Hx. unfold line. apply math_block. assert (S1 : has_char newline (strip_dollars x) = false).
    { clear - Hx. induction x as [|c x IH]; [reflexivity|]. cbn [has_char strip_dollars] in *. apply orb_false_elim in Hx. destruct Hx as [A B]. destruct (Ascii.eqb dollar c); [apply IH, B|cbn [has_char]; rewrite A; apply IH, B]. }
    apply replace_no; [reflexivity|exact S1]. }
  assert (LB : block L).
  { intros x Hx. unfold L in Hx. apply in_app_or in Hx. destruct Hx as [Hx|Hx]; apply in_map_iff in Hx; destruct Hx as (y & <- & Hy); apply LN; [exact (split_on_free _ _ _ Hy)|apply HP, Hy]. }
  rewrite app_assoc. fold L. change [nl; math (join nl table)] with (nl :: [math (join nl table)]).
  assert (EJ : join nl (L ++ nl :: [math (join nl table)]) = join nl (L ++ nl :: k)).
  { rewrite !join_app by (assumption || discriminate). f_equal. f_equal. destruct k; [contradiction|]. change (join nl [nl; math (join nl table)]) with (nl ++ nl ++ math (join nl table))%string. rewrite <- KE. reflexivity. }
  rewrite EJ, three_blocks, KE by assumption. reflexivity.
Qed.
Print Assumptions C215_relative_errors.
Example C215_relative_ex :
  parameter_info (mkOptions false false false false false false true)
    (mkReport "f(x)=m x" [("m", (Dec (mkSci false 1 [2%nat] 0), Dec (mkSci false 1 [] (-1))))] (join nl ["-------"; "m \;\;\;   8.333e-02"]) None ("1.00", "1.00") "0.99")
  = ("$ f(x)=m x $" ++ nl ++ "$ m = 1.2e+00 \pm 1e-01 $" ++ nl ++ nl ++ "$ -------" ++ nl ++ "m \;\;\;   8.333e-02 $")%string.
Proof. vm_compute. reflexivity. Qed.
