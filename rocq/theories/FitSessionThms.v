(** Theorems about what a fit object reports: C217, C218. *)
From Coq Require Import Reals Lra Lia List String Bool Arith ZArith.
From Verif Require Import Py PyStr Num FitCore FitPlot FitCoreThms FitFuncs FitSession.
Import ListNotations.
Open Scope string_scope.
Open Scope list_scope.
Open Scope R_scope.

(* ---------------------------------------------------------------- specification *)
(** The value stored for a name. *)
Definition has {V} (d : option (list (string * V))) (name : string) (v : V) : Prop :=
  exists l, d = Some l /\ In (name, v) l /\ forall v', In (name, v') l -> v' = v.
(** The bounds given to make_fit say: the [i]-th parameter, called [name], lies between [a] and [b]. *)
Definition side_says (s : side (T := XR)) (i : nat) (a : XR) : Prop :=
  match s with One x => a = x | Each l => nth_error l i = Some a end.
Definition bounds_say (bd : bnds (T := XR)) (i : nat) (name : string) (a b : XR) : Prop :=
  match bd with
  | Sides lo hi => side_says lo i a /\ side_says hi i b
  | Named d => exists d1 d2, d = d1 ++ (name, (a, b)) :: d2 /\ forall v, ~ In (name, v) d1
  end.
(** They say something about each of the [args]. *)
Definition side_fits (s : side (T := XR)) (n : nat) : Prop := match s with One _ => True | Each l => List.length l = n end.
Definition bounds_fit (bd : bnds (T := XR)) (args : list string) : Prop :=
  match bd with
  | Sides lo hi => side_fits lo (List.length args) /\ side_fits hi (List.length args)
  | Named d => forall name, In name args -> In name (map fst d)
  end.
(** The optimiser, started at [start] with the bounds [bd], converges to [r]. *)
Definition converges (solve : solver (T := XR)) (o : session (T := XR)) (bd : bnds (T := XR)) (start : list XR) (r : lsqr (T := XR)) : Prop :=
  forall lo hi, List.length lo = List.length (c_args (f_class o)) -> List.length hi = List.length (c_args (f_class o)) ->
  (forall i name, nth_error (c_args (f_class o)) i = Some name ->
     exists a b, nth_error lo i = Some a /\ nth_error hi i = Some b /\ bounds_say bd i name a b) ->
  solve (c_fun (f_class o)) (u_used (f_obs o)) start (lo, hi) = LSuccess r.

(* ---------------------------------------------------------------- lemmas *)
Lemma dict_get_In {V} (k : string) (v : V) d :
  dict_get k d = Ok v -> In (k, v) d.
Proof.
  induction d as [|[k' v'] d IH]; cbn [dict_get]; [discriminate|]. destruct (String.eqb k' k) eqn:E.
  - apply String.eqb_eq in E. subst k'. intros H. injection H as ->. left. reflexivity.
  - intros H. right. exact (IH H).
Qed.
Lemma dict_get_first {V} (k : string) (v : V) d :
  dict_get k d = Ok v <-> exists d1 d2, d = d1 ++ (k, v) :: d2 /\ forall w, ~ In (k, w) d1.
Proof.
  induction d as [|[k' v'] d IH]; cbn [dict_get].
  - split; [discriminate|]. intros (d1 & d2 & E & _). destruct d1; discriminate.
  - destruct (String.eqb k' k) eqn:E.
    + apply String.eqb_eq in E. subst k'. split.
      * intros H. injection H as ->. exists [], d. split; [reflexivity|]. intros w [].
      * intros (d1 & d2 & Q & N). destruct d1 as [|x d1]; cbn in Q; [congruence|].
        injection Q as <- _. exfalso. apply (N v'). left. reflexivity.
    + apply String.eqb_neq in E. rewrite IH. split.
      * intros (d1 & d2 & -> & N). exists ((k', v') :: d1), d2. split; [reflexivity|].
        intros w [H|H]; [congruence|exact (N w H)].
      * intros (d1 & d2 & Q & N). destruct d1 as [|x d1]; cbn in Q; [congruence|].
        injection Q as <- ->. exists d1, d2. split; [reflexivity|]. intros w H. apply (N w). right. exact H.
Qed.
Lemma dict_get_total {V} (k : string) (d : list (string * V)) : In k (map fst d) -> exists v, dict_get k d = Ok v.
Proof.
  induction d as [|[k' v'] d IH]; cbn [map In dict_get fst]; [intros []|]. intros [E|H].
  - subst k'. rewrite String.eqb_refl. eexists. reflexivity.
  - destruct (String.eqb k' k); [eexists; reflexivity|exact (IH H)].
Qed.
Lemma combine_nth_error {X Y} (a : list X) (b : list Y) i x y :
  nth_error a i = Some x -> nth_error b i = Some y -> nth_error (combine a b) i = Some (x, y).
Proof.
  revert b i. induction a as [|x0 a IH]; intros [|y0 b] [|i] H1 H2; try discriminate; cbn in *.
  - congruence.
  - exact (IH _ _ H1 H2).
Qed.
Lemma map_fst_combine {X Y} (a : list X) (b : list Y) : List.length b = List.length a -> map fst (combine a b) = a.
Proof.
  revert b. induction a as [|x a IH]; intros [|y b] H; try discriminate; cbn; [reflexivity|]. f_equal. apply IH. injection H as H. exact H.
Qed.
Lemma dict_get_nth {V} (args : list string) (l : list V) i name v :
  NoDup args -> nth_error args i = Some name -> nth_error l i = Some v -> dict_get name (combine args l) = Ok v.
Proof.
  intros ND. revert l i. induction ND as [|x args NI ND IH]; intros [|y l] [|i] H1 H2; try discriminate; cbn in *.
  - injection H1 as ->. injection H2 as ->. rewrite String.eqb_refl. reflexivity.
  - destruct (String.eqb x name) eqn:E; [|exact (IH _ _ H1 H2)].
    apply String.eqb_eq in E. subst x. exfalso. apply NI. exact (nth_error_In _ _ H1).
Qed.
Lemma mapM_get {V} (args : list string) (l : list V) pre :
  NoDup (pre ++ args) -> List.length l = List.length args -> forall d,
  (forall i name v, nth_error args i = Some name -> nth_error l i = Some v -> dict_get name d = Ok v) ->
  mapM (fun k => dict_get k d) args = Ok l.
Proof.
  revert l pre. induction args as [|x args IH]; intros [|y l] pre ND L d H; try discriminate; cbn [mapM]; [reflexivity|].
  rewrite (H 0%nat x y eq_refl eq_refl). cbn [bind]. rewrite (IH l (pre ++ [x])).
  - reflexivity.
  - rewrite <- app_assoc. exact ND.
  - injection L as L. exact L.
  - intros i. exact (H (S i)).
Qed.
Lemma parameters_ok (o : session (T := XR)) l :
  NoDup (c_args (f_class o)) -> List.length l = List.length (c_args (f_class o)) ->
  f_popt o = Some (combine (c_args (f_class o)) l) -> parameters o = Ok l.
Proof.
  intros ND L E. unfold parameters. rewrite E. apply mapM_get with (pre := []); [exact ND|exact L|].
  intros i name v H1 H2. exact (dict_get_nth _ _ i name v ND H1 H2).
Qed.
Lemma has_combine {V} (args : list string) (l : list V) i name v :
  NoDup args -> nth_error args i = Some name -> nth_error l i = Some v -> has (Some (combine args l)) name v.
Proof.
  intros ND H1 H2. exists (combine args l). split; [reflexivity|].
  split; [exact (nth_error_In _ _ (combine_nth_error _ _ _ _ _ H1 H2))|].
  revert l i H1 H2. induction ND as [|x args NI ND IH]; intros [|y l] [|i] H1 H2 w H; try discriminate; cbn in *.
  - injection H1 as ->. injection H2 as ->. destruct H as [H|H]; [congruence|].
    exfalso. apply NI. exact (in_combine_l _ _ _ _ H).
  - destruct H as [H|H]; [|exact (IH _ _ H1 H2 w H)]. injection H as -> ->. exfalso. apply NI. exact (nth_error_In _ _ H1).
Qed.
Lemma spread_length n s : side_fits s n -> List.length (spread n s) = n.
Proof. destruct s; cbn; [intros _; apply repeat_length|auto]. Qed.
Lemma spread_says n s i : side_fits s n -> (i < n)%nat -> exists a, nth_error (spread n s) i = Some a /\ side_says s i a.
Proof.
  destruct s as [x|l]; cbn; intros F L.
  - exists x. split; [|reflexivity]. apply nth_error_repeat. exact L.
  - destruct (nth_error l i) eqn:E; [eauto|]. apply nth_error_None in E. lia.
Qed.
Lemma bounds_given args n bd : List.length args = n -> bounds_fit bd args ->
  exists lo hi, the_bounds args n bd = Ok (lo, hi) /\ List.length lo = n /\ List.length hi = n /\
    forall i name, nth_error args i = Some name -> exists a b, nth_error lo i = Some a /\ nth_error hi i = Some b /\ bounds_say bd i name a b.
Proof.
  intros L F. destruct bd as [sl sh|d]; cbn [the_bounds bounds_fit bounds_say] in *.
  - destruct F as [F1 F2]. rewrite L in F1, F2. exists (spread n sl), (spread n sh). split; [reflexivity|].
    split; [exact (spread_length _ _ F1)|]. split; [exact (spread_length _ _ F2)|]. intros i name H.
    assert (I : (i < n)%nat) by (rewrite <- L; apply nth_error_Some; congruence).
    destruct (spread_says n sl i F1 I) as (a & A1 & A2). destruct (spread_says n sh i F2 I) as (b & B1 & B2).
    exists a, b. auto.
  - subst n. induction args as [|x args IH]; cbn [mapM].
    + exists [], []. cbn. repeat split; auto. intros [|i] name H; discriminate.
    + destruct (dict_get_total x d (F x (or_introl eq_refl))) as ((a & b) & G). rewrite G. cbn [bind].
      destruct IH as (lo & hi & E & L1 & L2 & P); [intros name H; apply F; right; exact H|].
      apply rmap_ok in E. destruct E as (l & E & Q). rewrite E. cbn [bind rmap].
      assert (Q1 : lo = map fst l) by congruence. assert (Q2 : hi = map snd l) by congruence. subst lo hi.
      exists (a :: map fst l), (b :: map snd l). cbn. rewrite L1, L2. repeat split; auto.
      intros [|i] name H; cbn in *.
      * injection H as ->. exists a, b. repeat split; auto. apply dict_get_first. exact G.
      * exact (P i name H).
Qed.

(* ================================================================ C217 *)
(** When the optimiser converges, make_fit returns None and the object reports, for each parameter, the optimised
    value, the uncertainty, the bounds it was given and the initial guess; the TeX info and the plotter show that fit. *)
Theorem C217_converged_fit_is_complete :
  forall solve cov o return_exception k raw lim p0 start r diag,
  let args := c_args (f_class o) in
  NoDup args -> set_fit_obs raw lim = Ok (f_obs o) -> (List.length args <= nobs (f_obs o))%nat -> s_absolute k = false ->
  c_p0 (f_class o) (u_used (f_obs o)) = Ok (Some p0) -> List.length p0 = List.length args ->
  start = match s_p0 k with Some (Some p) => p | _ => p0 end -> s_p0 k <> Some None -> List.length start = List.length args ->
  bounds_fit (s_bounds k) args -> converges solve o (s_bounds k) start r -> List.length (r_x r) = List.length args ->
  cov r = Ok diag -> List.length diag = List.length args ->
  exists o' t plot, fit solve cov o return_exception k = (Returned None, o') /\
    f_class o' = f_class o /\ f_obs o' = f_obs o /\ f_result o' = Some r /\ f_tex o' = Some t /\ f_plot o' = Some plot /\
    (forall i name, nth_error args i = Some name -> exists v s g a b,
       nth_error (r_x r) i = Some v /\ nth_error (uncertainties r (List.length args) diag) i = Some s /\
       nth_error p0 i = Some g /\ bounds_say (s_bounds k) i name a b /\
       has (f_popt o') name v /\ has (f_psigma o') name s /\ has (f_bounds o') name (a, b) /\
       (exists tbl, combined_table o' = Ok tbl /\ List.length tbl = List.length args /\ nth_error tbl i = Some (name, (v, s))) /\
       (exists gi, initial_guess_info o' = Ok (Some gi) /\ has (Some gi) name (g, (a, b)))) /\
    f_chisq o' = Some (linear_chisq (c_fun (f_class o) (r_x r)) (List.length args) (u_used (f_obs o)), robust_chisq r (List.length args)) /\
    Some (t_popt t) = f_popt o' /\ Some (t_psigma t) = f_psigma o' /\ t_chisq t = f_chisq o' /\
    initial_guess_info o' = Ok (t_guess t) /\ t_rsq t = rsq (c_fun (f_class o) (r_x r)) (u_used (f_obs o)) /\
    p_obs plot = f_obs o /\ p_yfit plot = map (c_fun (f_class o) (r_x r)) (o_x raw) /\ p_fun plot = Some (r_fun r).
Proof.
  intros solve cov o re k raw lim p0 start r diag args ND OB EN AB P0 L0 ST SN LS BF CV LX CD LD.
  destruct (bounds_given args (List.length args) (s_bounds k) eq_refl BF) as (lo & hi & EB & LB1 & LB2 & PB).
  set (b := combine args (combine lo hi)).
  set (u := uncertainties r (List.length args) diag).
  assert (LU : List.length u = List.length args).
  { unfold u, uncertainties. destruct (Nat.ltb _ _); rewrite map_length; exact LD. }
  set (ch := (linear_chisq (c_fun (f_class o) (r_x r)) (List.length args) (u_used (f_obs o)), robust_chisq r (List.length args))).
  set (o1 := with_bounds b o).
  assert (R1 : run_ls solve o k = Ok (r, start, o1)).
  { unfold run_ls. rewrite P0. cbn [bind]. fold args.
    assert (SP : match s_p0 k with Some p => p | None => Some p0 end = Some start).
    { destruct (s_p0 k) as [[p|]|]; [congruence|contradiction|congruence]. }
    rewrite SP. cbv zeta. rewrite LS, EB. cbn [bind fst snd]. rewrite (CV lo hi LB1 LB2 PB). reflexivity. }
  set (o2 := with_fit (r_x r) u ch r o1).
  assert (PP : parameters o2 = Ok (r_x r)) by (apply parameters_ok; [exact ND|exact LX|reflexivity]).
  assert (LBb : List.length (combine lo hi) = List.length args) by (rewrite combine_length, LB1, LB2; apply Nat.min_id).
  assert (GI : exists gi, initial_guess_info o2 = Ok (Some gi) /\
     (forall i name g a c, nth_error args i = Some name -> nth_error p0 i = Some g -> nth_error lo i = Some a -> nth_error hi i = Some c ->
        has (Some gi) name (g, (a, c)))).
  { unfold initial_guess_info. cbn [o2 o1 with_fit with_bounds f_class f_obs f_bounds]. rewrite P0. fold args.
    exists (combine args (combine p0 (combine lo hi))). split.
    - assert (G : forall as' p' l' h', (forall i name a c, nth_error as' i = Some name -> nth_error l' i = Some a -> nth_error h' i = Some c -> dict_get name b = Ok (a, c)) ->
         List.length p' = List.length as' -> List.length l' = List.length as' -> List.length h' = List.length as' ->
         mapM (fun ng : string * XR => rmap (fun bd : XR * XR => (fst ng, (snd ng, bd))) (dict_get (fst ng) b)) (combine as' p') =
         Ok (combine as' (combine p' (combine l' h')))).
      { induction as' as [|x as' IH]; intros [|p' ps] [|l' ls] [|h' hs] H E1 E2 E3; try discriminate; [reflexivity|].
        cbn [combine mapM fst snd]. rewrite (H 0%nat x l' h' eq_refl eq_refl eq_refl). cbn [bind rmap].
        rewrite (IH ps ls hs); [reflexivity| |cbn in *; lia..]. intros i. exact (H (S i)). }
      rewrite (G args p0 lo hi); [reflexivity| |exact L0|exact LB1|exact LB2].
      intros i name a c H1 H2 H3. apply dict_get_nth with (i := i); [exact ND|exact H1|]. apply combine_nth_error; assumption.
    - intros i name g a c H1 H2 H3 H4. apply has_combine with (i := i); [exact ND|exact H1|].
      apply combine_nth_error; [exact H2|]. apply combine_nth_error; assumption. }
  destruct GI as (gi & GI & GH).
  set (t := mkTexSnap (combine args (r_x r)) (combine args u) (Some ch) (rsq (c_fun (f_class o) (r_x r)) (u_used (f_obs o))) (Some gi)).
  assert (BT : build_tex o2 = Ok t).
  { unfold build_tex. cbn [o2 o1 with_fit with_bounds f_popt f_psigma f_class f_obs f_chisq]. fold args. fold o1 o2. rewrite PP. cbn [bind].
    rewrite GI. cbn [bind].
    assert (FB : forallb (fun kv : string * XR => mem_str (fst kv) (map fst (combine args u))) (combine args (r_x r)) = true).
    { apply forallb_forall. intros [n v] H. apply mem_str_In. rewrite map_fst_combine by exact LU. exact (in_combine_l _ _ _ _ H). }
    rewrite FB. reflexivity. }
  set (o3 := with_tex t o2).
  destruct (C47_used_are_the_admissible_observations raw lim (f_obs o) OB) as (RW & LM & _ & UX & _).
  set (plot := {| p_obs := f_obs o; p_yfit := map (c_fun (f_class o) (r_x r)) (o_x raw); p_fun := Some (r_fun r) |}).
  assert (BP : build_plot o3 = Ok plot).
  { unfold build_plot. cbn [o3 with_tex o2 o1 with_fit with_bounds f_result].
    assert (PQ : parameters o3 = Ok (r_x r)) by (apply parameters_ok; [exact ND|exact LX|reflexivity]).
    fold o1 o2 o3. rewrite PQ. cbn [bind o3 with_tex o2 o1 with_fit with_bounds f_class f_obs]. unfold ff_new. rewrite RW.
    rewrite map_length, Nat.eqb_refl. cbn [negb].
    assert (SL : forall (m : list bool) (l : list XR) (f : XR -> XR), List.length (select m (map f l)) = List.length (select m l)).
    { induction m as [|[] m IH]; intros [|x l] f; cbn; try reflexivity; [f_equal|]; apply IH. }
    rewrite SL, UX, Nat.eqb_refl. reflexivity. }
  exists (with_plot plot o3), t, plot. split.
  { unfold fit. fold args.
    assert (LE : Nat.leb (List.length args) (nobs (f_obs o)) = true) by (apply Nat.leb_le; exact EN).
    rewrite LE, AB. cbn [negb]. rewrite R1, CD. cbv zeta. rewrite LS.
    fold u. fold ch. fold o2. rewrite BT. fold o3. rewrite BP. reflexivity. }
  split; [reflexivity|]. split; [reflexivity|]. split; [reflexivity|]. split; [reflexivity|]. split; [reflexivity|]. split.
  { intros i name H. destruct (PB i name H) as (a & c & A1 & A2 & SAY).
    assert (I : (i < List.length args)%nat) by (apply nth_error_Some; congruence).
    destruct (nth_error (r_x r) i) as [v|] eqn:EV; [|apply nth_error_None in EV; lia].
    destruct (nth_error u i) as [s|] eqn:EU; [|apply nth_error_None in EU; lia].
    destruct (nth_error p0 i) as [g|] eqn:EG; [|apply nth_error_None in EG; lia].
    exists v, s, g, a, c. repeat (split; [first [reflexivity|assumption]|]).
    split; [exact (has_combine args (r_x r) i name v ND H EV)|].
    split; [exact (has_combine args u i name s ND H EU)|].
    split; [exact (has_combine args (combine lo hi) i name (a, c) ND H (combine_nth_error _ _ _ _ _ A1 A2))|].
    split.
    - exists (combine args (combine (r_x r) u)). split; [|split].
      + unfold combined_table. cbn [with_plot o3 with_tex o2 o1 with_fit with_bounds f_popt f_psigma f_class]. fold args.
        assert (G : forall as' p' u', (forall i name s, nth_error as' i = Some name -> nth_error u' i = Some s -> dict_get name (combine args u) = Ok s) ->
           List.length p' = List.length as' -> List.length u' = List.length as' ->
           mapM (fun kv : string * XR => rmap (fun sg : XR => (fst kv, (snd kv, sg))) (dict_get (fst kv) (combine args u))) (combine as' p') =
           Ok (combine as' (combine p' u'))).
        { induction as' as [|x as' IH]; intros [|p' ps] [|u' us] Q E1 E2; try discriminate; [reflexivity|].
          cbn [combine mapM fst snd]. rewrite (Q 0%nat x u' eq_refl eq_refl). cbn [bind rmap].
          rewrite (IH ps us); [reflexivity| |cbn in *; lia..]. intros j. exact (Q (S j)). }
        apply G; [|exact LX|exact LU]. intros j n w. apply dict_get_nth. exact ND.
      + rewrite !combine_length, LX, LU, !Nat.min_id. reflexivity.
      + apply combine_nth_error; [exact H|]. apply combine_nth_error; assumption.
    - exists gi. split; [exact GI|]. exact (GH i name g a c H EG A1 A2). }
  split; [reflexivity|]. split; [reflexivity|]. split; [reflexivity|]. split; [reflexivity|]. split; [exact GI|].
  split; [reflexivity|]. split; [reflexivity|]. split; [reflexivity|]. reflexivity.
Qed.
Print Assumptions C217_converged_fit_is_complete.


(** An example: a power law (its own guess is always 1, 1) fitted to three points, started at 7, 7. *)
Definition ex_raw : obs (T := XR) := mkObs [Fin 1; Fin 2; Fin 3] [Fin 1; Fin 1; Fin 2] None.
Definition ex_used : used_raw (T := XR) := {| u_used := ex_raw; u_raw := ex_raw; u_mask := [true; true; true] |}.
Definition ex_start : kws (T := XR) := mkKws (Some (Some [Fin 7; Fin 7])) (Named [("b", (MInf, PInf)); ("A", (Fin 0, PInf))]) false.
Definition ex_res : lsqr (T := XR) := mkRes [Fin 5; Fin 6] (Fin 0) [Fin 0; Fin 0; Fin 0].
Lemma ex_used_ok : set_fit_obs ex_raw no_limits = Ok ex_used.
Proof. reflexivity. Qed.
Lemma power_law_args : c_args (PowerLaw (T := XR)) = ["A"; "b"].
Proof. reflexivity. Qed.
Example C217_ex : exists o', fit (fun _ _ _ _ => LSuccess ex_res) (fun _ => Ok [Fin 1; Fin 1]) (new_session PowerLaw ex_used) true ex_start = (Returned None, o') /\
  has (f_popt o') "A" (Fin 5) /\ has (f_bounds o') "A" (Fin 0, PInf).
Proof.
  destruct (C217_converged_fit_is_complete (fun _ _ _ _ => LSuccess ex_res) (fun _ => Ok [Fin 1; Fin 1]) (new_session PowerLaw ex_used) true ex_start
    ex_raw no_limits [aofZ 1; aofZ 1] [Fin 7; Fin 7] ex_res [Fin 1; Fin 1]) as (o' & t & pl & E & _ & _ & _ & _ & _ & P & _);
    try reflexivity; try (cbn; discriminate).
  - cbn. repeat constructor; cbn; intuition discriminate.
  - cbn. lia.
  - cbn. intros n [<-|[<-|[]]]; auto.
  - intros lo hi _ _ _. reflexivity.
  - exists o'. split; [exact E|]. destruct (P 0%nat "A" eq_refl) as (v & s & g & a & b & V & _ & _ & SAY & HP & _ & HB & _).
    cbn in V. injection V as <-. split; [exact HP|].
    cbn [s_bounds ex_start bounds_say] in SAY. destruct SAY as (d1 & d2 & Q & N).
    assert (AB : (a, b) = (Fin 0, PInf)).
    { destruct d1 as [|x d1]; cbn in Q; [discriminate|]. destruct d1 as [|y d1]; cbn in Q; [congruence|].
      destruct d1; discriminate. }
    rewrite <- AB. exact HB.
Qed.
(** The reported initial guess is the class's own, not the start that was passed and used. *)
Theorem C217_initial_guess_is_not_the_start_refuted :
  exists solve cov o k o' gi,
  s_p0 k = Some (Some [Fin 7; Fin 7]) /\
  (forall f u s bd, solve f u s bd = if aeqb (hd NaN s) (Fin 7) then LSuccess ex_res else LNoSuccess) /\
  fit solve cov o true k = (Returned None, o') /\
  initial_guess_info o' = Ok (Some gi) /\ has (Some (map (fun e => (fst e, fst (snd e))) gi)) "A" (Fin 1).
Proof.
  set (solve := (fun (_ : list XR -> XR -> XR) (_ : obs (T := XR)) (s : list XR) (_ : list XR * list XR) =>
     if aeqb (hd NaN s) (Fin 7) then LSuccess ex_res else LNoSuccess) : solver (T := XR)).
  destruct (C217_converged_fit_is_complete solve (fun _ => Ok [Fin 1; Fin 1]) (new_session PowerLaw ex_used) true ex_start
    ex_raw no_limits [aofZ 1; aofZ 1] [Fin 7; Fin 7] ex_res [Fin 1; Fin 1]) as (o' & t & pl & E & _ & _ & _ & _ & _ & P & _);
    try reflexivity; try (cbn; discriminate).
  - cbn. repeat constructor; cbn; intuition discriminate.
  - cbn. lia.
  - cbn. intros n [<-|[<-|[]]]; auto.
  - intros lo hi _ _ _. unfold solve. cbn [hd]. change (aeqb (Fin 7) (Fin 7)) with (Reqb 7 7). unfold Reqb.
    destruct (Req_EM_T 7 7); [reflexivity|contradiction].
  - destruct (P 0%nat "A" eq_refl) as (v & s & g & a & b & _ & _ & G & _ & _ & _ & _ & _ & gi & GI & gl & GE & GIN & GU).
    exists solve, (fun _ => Ok [Fin 1; Fin 1]), (new_session PowerLaw ex_used), ex_start, o', gi.
    repeat (split; [first [reflexivity|assumption]|]). assert (GLE : gi = gl) by congruence. subst gl.
    cbn [nth_error] in G. rewrite fin_ofZ in G.
    exists (map (fun e => (fst e, fst (snd e))) gi). split; [reflexivity|]. split.
    + apply in_map_iff. exists ("A", (g, (a, b))). split; [|exact GIN]. cbn. congruence.
    + intros v' H. apply in_map_iff in H. destruct H as ([n [g' ab]] & Q & IN). cbn in Q. injection Q as -> ->.
      specialize (GU _ IN). congruence.
Qed.
Print Assumptions C217_initial_guess_is_not_the_start_refuted.

(* ================================================================ C218 *)
(** A straight line, documented to fall back on the optimiser's default start where its own guess fails, cannot be
    fitted to observations of which two successive ones have the same abscissa: whatever the optimiser finds, make_fit
    raises a TypeError, also if asked to return exceptions, and the object keeps the new parameters without a TeX info or plotter for them. *)
Theorem C218_repeated_abscissa_refuted :
  forall (solve : solver (T := XR)) cov o return_exception k r diag i a,
  f_class o = Line -> (2 <= nobs (f_obs o))%nat -> s_absolute k = false ->
  nth_error (o_x (u_used (f_obs o))) i = Some (Fin a) -> nth_error (o_x (u_used (f_obs o))) (S i) = Some (Fin a) ->
  (forall p, s_p0 k = Some (Some p) -> List.length p = 2%nat) ->
  bounds_fit (s_bounds k) ["m"; "b"] -> (forall start, converges solve o (s_bounds k) start r) -> List.length (r_x r) = 2%nat ->
  cov r = Ok diag ->
  exists o', fit solve cov o return_exception k = (Raised TypeError, o') /\
    has (f_popt o') "m" (hd NaN (r_x r)) /\ f_tex o' = f_tex o /\ f_plot o' = f_plot o.
Proof.
  intros solve cov o re k r diag i a CL EN AB X1 X2 SL BF CV LX CD.
  assert (P0 : c_p0 (f_class o) (u_used (f_obs o)) = Ok None).
  { rewrite CL. cbn [c_p0 Line]. unfold line_p0.
    assert (DX : dx_ok (o_x (u_used (f_obs o))) = false).
    { generalize dependent (o_x (u_used (f_obs o))). intros xs X1 X2. clear -X1 X2. revert i X1 X2. unfold dx_ok.
      induction xs as [|x xs IH]; intros [|i] X1 X2; try discriminate.
      - destruct xs as [|y xs]; [discriminate|]. cbn in X1, X2. injection X1 as ->. injection X2 as ->.
        change (ediff1d (Fin a :: Fin a :: xs)) with ((Fin a - Fin a)%num :: ediff1d (Fin a :: xs)). cbn [forallb]. rewrite fin_sub.
        replace (a - a) with 0 by ring. rewrite fin_abs, Rabs_R0, fin_ofZ.
        assert (Q : agtb (Fin 0) (Fin 0) = false) by (unfold agtb; apply Rltb_false; lra). rewrite Q, andb_false_r. reflexivity.
      - destruct xs as [|y xs]; [destruct i; discriminate|]. specialize (IH i X1 X2).
        change (ediff1d (x :: y :: xs)) with ((y - x)%num :: ediff1d (y :: xs)). cbn [forallb]. rewrite IH. apply andb_false_r. }
    rewrite DX. reflexivity. }
  assert (AR : c_args (f_class o) = ["m"; "b"]) by (rewrite CL; reflexivity).
  set (n := match (match s_p0 k with Some p => p | None => None end) with Some p => List.length p | None => List.length (c_args (f_class o)) end).
  assert (NN : n = 2%nat).
  { unfold n. destruct (s_p0 k) as [[p|]|] eqn:E; [exact (SL p eq_refl)| |]; rewrite AR; reflexivity. }
  destruct (bounds_given ["m"; "b"] 2%nat (s_bounds k) eq_refl BF) as (lo & hi & EB & LB1 & LB2 & PB).
  set (start := match (match s_p0 k with Some p => p | None => None end) with Some p => p | None => feasible (lo, hi) end).
  assert (R1 : run_ls solve o k = Ok (r, start, with_bounds (combine ["m"; "b"] (combine lo hi)) o)).
  { unfold run_ls. rewrite P0. cbn [bind]. cbv zeta. fold n. rewrite NN, AR, EB. cbn [bind fst snd]. fold start.
    rewrite (CV start lo hi); [reflexivity|rewrite AR; assumption..]. }
  destruct (r_x r) as [|m [|b [|? ?]]] eqn:RX; try discriminate.
  unfold fit. rewrite AR. cbn [List.length].
  assert (LE : Nat.leb 2 (nobs (f_obs o)) = true) by (apply Nat.leb_le; exact EN).
  rewrite LE, AB. cbn [negb]. rewrite R1, CD. cbv zeta.
  match goal with |- context [build_tex ?x] => set (o2 := x) end.
  assert (PP : parameters o2 = Ok (r_x r)).
  { apply parameters_ok.
    - cbn [o2 with_fit with_bounds f_class]. rewrite AR. repeat constructor; cbn; intuition discriminate.
    - cbn [o2 with_fit with_bounds f_class]. rewrite AR, RX. reflexivity.
    - reflexivity. }
  assert (BT : build_tex o2 = Err TypeError).
  { unfold build_tex. rewrite PP. cbn [bind]. cbn [o2 with_fit with_bounds f_popt f_psigma].
    unfold initial_guess_info. cbn [o2 with_fit with_bounds f_bounds f_class f_obs]. rewrite P0. reflexivity. }
  rewrite BT. exists o2. split; [reflexivity|]. split; [|split; reflexivity].
  cbn [o2 with_fit with_bounds f_popt]. rewrite RX. cbn [f_class with_bounds]. rewrite AR. cbn [hd].
  apply has_combine with (i := 0%nat); [repeat constructor; cbn; intuition discriminate|reflexivity|reflexivity].
Qed.
Print Assumptions C218_repeated_abscissa_refuted.
Definition ex_rep_raw : obs (T := XR) := mkObs [Fin 1; Fin 1; Fin 3] [Fin 1; Fin 2; Fin 4] None.
Example C218_ex : exists o', fit (fun _ _ _ _ => LSuccess ex_res) (fun _ => Ok [Fin 1; Fin 1])
   (new_session Line {| u_used := ex_rep_raw; u_raw := ex_rep_raw; u_mask := [true; true; true] |}) true (mkKws None (Sides (One MInf) (One PInf)) false)
   = (Raised TypeError, o') /\ has (f_popt o') "m" (Fin 5).
Proof.
  destruct (C218_repeated_abscissa_refuted (fun _ _ _ _ => LSuccess ex_res) (fun _ => Ok [Fin 1; Fin 1])
   (new_session Line {| u_used := ex_rep_raw; u_raw := ex_rep_raw; u_mask := [true; true; true] |}) true (mkKws None (Sides (One MInf) (One PInf)) false)
   ex_res [Fin 1; Fin 1] 0%nat 1) as (o' & E & H & _); try reflexivity; try (cbn; auto; lia).
  - cbn. discriminate.
  - intros s lo hi _ _ _. reflexivity.
  - exists o'. split; [exact E|exact H].
Qed.
