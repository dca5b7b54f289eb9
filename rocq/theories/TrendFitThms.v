(** C56 (parallel = sequential), C57 (bad fits separated), C104 (trend observations). *)
From Coq Require Import List String Bool Arith ZArith Reals Lra Lia Permutation.
From Verif Require Import Py PyStr Num FitCore FitFuncs FitCoreThms TrendFit.
Import ListNotations.
Open Scope string_scope.
Open Scope list_scope.

Notation fit_result := (option exn * ffobj (T := XR))%type.

(* ---------------------------------------------------------------- the pool *)
Lemma run_pool_all (vs : list fit_result) order slots :
  (forall i, In i order -> (i < List.length vs)%nat) ->
  run_pool (map Ok vs) order slots = Ok (slots ++ map (fun i => (i, nth i vs (None, ex_ff false 0))) order).
Proof.
  revert slots. induction order as [|i r IH]; intros slots H; cbn [run_pool map]; [rewrite app_nil_r; reflexivity|].
  assert (L : (i < List.length vs)%nat) by (apply H; left; reflexivity).
  rewrite nth_error_map, (nth_error_nth' vs (None, ex_ff false 0) L). cbn [option_map].
  rewrite IH by (intros j Hj; apply H; right; exact Hj). rewrite <- app_assoc. reflexivity.
Qed.
Lemma run_pool_raises (tasks : list (result fit_result)) order slots i e :
  In i order -> nth_error tasks i = Some (Err e) -> exists e', run_pool tasks order slots = Err e'.
Proof.
  revert slots. induction order as [|j r IH]; intros slots H E; [contradiction|]. cbn [run_pool].
  destruct H as [->|H]; [rewrite E; eauto|]. destruct (nth_error tasks j) as [[v|e']|]; [apply IH; assumption|eauto|apply IH; assumption].
Qed.
Lemma slot_map (g : nat -> fit_result) l i : In i l -> slot i (map (fun j => (j, g j)) l) = Some (g i).
Proof.
  induction l as [|j r IH]; [contradiction|]. cbn [map slot]. intros H. destruct (Nat.eqb i j) eqn:E; [apply Nat.eqb_eq in E; subst; reflexivity|].
  destruct H as [->|H]; [rewrite Nat.eqb_refl in E; discriminate|apply IH, H].
Qed.
Lemma mapM_all {A B} (f : A -> result B) l : (exists ys, mapM f l = Ok ys) \/ (exists x e, In x l /\ f x = Err e).
Proof.
  induction l as [|x l IH]; [left; exists []; reflexivity|]. cbn [mapM]. destruct (f x) as [y|e] eqn:E; [|right; exists x, e; cbn; auto].
  destruct IH as [[ys IH]|(z & e & I & H)]; [left; exists (y :: ys); cbn; rewrite IH; reflexivity|right; exists z, e; cbn; auto].
Qed.
Lemma gather (fs : ffuncs (T := XR)) (vs : list fit_result) (g : nat -> option fit_result) a :
  List.length vs = List.length fs -> (forall i v, nth_error vs i = Some v -> g (a + i)%nat = Some v) ->
  mapM (fun ik => match g (fst ik) with Some v => Ok (snd ik, v) | None => Err RuntimeError end) (combine (seq a (List.length fs)) (map fst fs)) =
  Ok (combine (map fst fs) vs).
Proof.
  revert vs a. induction fs as [|[k f] fs IH]; intros [|v vs] a L H; try discriminate; [reflexivity|].
  cbn [List.length seq map fst combine mapM]. cbn [snd].
  pose proof (H 0%nat v eq_refl) as H0. rewrite Nat.add_0_r in H0. rewrite H0. cbn [bind].
  rewrite (IH vs (S a)).
  - reflexivity.
  - cbn in L. lia.
  - intros i w Hw. replace (S a + i)%nat with (a + S i)%nat by lia. apply H. exact Hw.
Qed.
(** A pool that runs each task once gives the results of running them in turn. *)
Lemma pool_correct lsq re k fs order :
  Permutation order (seq 0 (List.length fs)) ->
  forall rs, par_fits lsq re k order fs = Ok rs <->
             mapM (fun kf => rmap (fun r => (fst kf, r)) (task lsq re k (snd kf))) fs = Ok rs.
Proof.
  intros P rs. unfold par_fits.
  destruct (mapM_all (fun kf : XR * ffobj (T := XR) => task lsq re k (snd kf)) fs) as [[vs E]|(x & e & I & E)].
  - assert (M : map (fun kf : XR * ffobj (T := XR) => task lsq re k (snd kf)) fs = map Ok vs /\ List.length vs = List.length fs).
    { apply mapM_ok in E. clear - E. induction E as [|x y l l' H _ [IH1 IH2]]; [split; reflexivity|]. cbn. rewrite H, IH1, IH2. split; reflexivity. }
    destruct M as [M L]. rewrite M, run_pool_all; [|intros i Hi; rewrite L; apply (Permutation_in _ P), in_seq in Hi; lia]. cbn [bind app].
    rewrite (gather fs vs (fun i => slot i (map (fun j => (j, nth j vs (None, ex_ff false 0))) order)) 0 L).
    2: { intros i v Hv. rewrite slot_map; [f_equal; apply nth_error_nth; exact Hv|]. apply (Permutation_in _ (Permutation_sym P)), in_seq.
         assert (i < List.length vs)%nat by (apply nth_error_Some; congruence). lia. }
    assert (Q : mapM (fun kf => rmap (fun r => (fst kf, r)) (task lsq re k (snd kf))) fs = Ok (combine (map fst fs) vs)).
    { apply mapM_ok in E. clear - E. induction E as [|x y l l' H _ IH]; [reflexivity|]. cbn. rewrite H. cbn. rewrite IH. reflexivity. }
    rewrite Q. reflexivity.
  - apply In_nth_error in I. destruct I as [i I].
    destruct (run_pool_raises (map (fun kf : XR * ffobj (T := XR) => task lsq re k (snd kf)) fs) order [] i e) as [e' R].
    + apply (Permutation_in _ (Permutation_sym P)), in_seq. assert (i < List.length fs)%nat by (apply nth_error_Some; congruence). lia.
    + rewrite nth_error_map, I. cbn. rewrite E. reflexivity.
    + rewrite R. cbn [bind]. split; [discriminate|]. intros Q. exfalso. apply mapM_ok in Q.
      apply nth_error_In in I. clear - Q I E. induction Q as [|z y l l' H _ IH]; [contradiction|]. destruct I as [->|I]; [rewrite E in H; discriminate|apply IH, I].
Qed.

(* ================================================================ C56 *)
(** Rebuilding a fit function made from unweighted, unlimited data gives it back. *)
Lemma rebuild c raw f : o_w raw = None -> new_ff (T := XR) c raw TrendFit.no_limits = Ok f ->
  new_ff (ff_class f) (mkObs (o_x (u_raw (ff_obs f))) (o_y (u_raw (ff_obs f))) None) TrendFit.no_limits = Ok f.
Proof.
  intros W H. pose proof H as H0. unfold new_ff in H. apply rmap_ok in H. destruct H as (u & E & ->). cbn [ff_class ff_obs].
  assert (R : u_raw u = raw).
  { unfold init_obs in E. rewrite W in E. cbn [l_wmin l_wmax TrendFit.no_limits] in E. exact (proj1 (C47_used_are_the_admissible_observations raw _ u E)). }
  rewrite R. destruct raw as [x y w]. cbn in *. subst w. exact H0.
Qed.
(** For every order in which the pool runs the tasks, and every number of jobs: the same good and bad fits, with the
    same parameters, as one job. Unweighted, unlimited 1d fits; at least two of them. *)
Theorem C56_parallel_is_sequential_partial :
  forall c x agg fs bad lsq re k n_jobs order t,
  make_ffunc1ds (T := XR) c x None TrendFit.no_limits agg = Ok fs ->
  Permutation order (seq 0 (List.length fs)) -> (2 <= List.length fs)%nat ->
  make_1dfits true n_jobs order lsq re k (mkTrend fs bad) = Ok t <->
  make_1dfits true 1 [] lsq re k (mkTrend fs bad) = Ok t.
Proof.
  intros c x agg fs bad lsq re k n_jobs order t M P L. unfold make_1dfits. cbn [t_ffuncs]. cbn [Z.eqb Pos.eqb negb andb].
  rewrite (proj2 (Nat.ltb_lt 1 (List.length fs))) by lia. destruct (Z.eqb n_jobs 1) eqn:N; cbn [negb andb]; [reflexivity|].
  assert (E : mapM (fun kf => rmap (fun r => (fst kf, r)) (task lsq re k (snd kf))) fs = seq_fits lsq re k fs).
  { unfold seq_fits. apply mapM_ext. intros kf I. f_equal. unfold task. unfold make_ffunc1ds in M. apply mapM_ok in M.
    assert (B : exists y, new_ff c (mkObs x y None) TrendFit.no_limits = Ok (snd kf)).
    { clear - M I. induction M as [|a b l l' H _ IH]; [contradiction|]. destruct I as [->|I]; [|apply IH, I].
      apply rmap_ok in H. destruct H as (f & E & ->). exists (snd a). exact E. }
    destruct B as [y B]. rewrite (rebuild c (mkObs x y None) (snd kf) eq_refl B). reflexivity. }
  rewrite !rmap_ok. split; intros (rs & H & ->); exists rs; (split; [|reflexivity]).
  - rewrite <- E. apply (pool_correct lsq re k fs order P), H.
  - apply (pool_correct lsq re k fs order P). rewrite E. exact H.
Qed.
Print Assumptions C56_parallel_is_sequential_partial.
(** Also for weighted or limited fits the schedule itself never matters. *)
Theorem C56_schedule_independent :
  forall fs bad lsq re k n_jobs order order' t,
  Permutation order (seq 0 (List.length fs)) -> Permutation order' (seq 0 (List.length fs)) ->
  make_1dfits (T := XR) true n_jobs order lsq re k (mkTrend fs bad) = Ok t <->
  make_1dfits (T := XR) true n_jobs order' lsq re k (mkTrend fs bad) = Ok t.
Proof.
  intros fs bad lsq re k n_jobs order order' t P P'. unfold make_1dfits. cbn [t_ffuncs].
  destruct (negb (Z.eqb n_jobs 1) && Nat.ltb 1 (List.length fs)); [|reflexivity].
  rewrite !rmap_ok. split; intros (rs & H & ->); exists rs; (split; [|reflexivity]).
  - apply (pool_correct lsq re k fs order' P'), (pool_correct lsq re k fs order P), H.
  - apply (pool_correct lsq re k fs order P), (pool_correct lsq re k fs order' P'), H.
Qed.
Print Assumptions C56_schedule_independent.
(** With a single 1d fit (or none) any n_jobs other than 1 fails. *)
Theorem C56_single_fit_refuted :
  forall joblib fs bad lsq re k n_jobs order, (List.length fs <= 1)%nat -> n_jobs <> 1%Z ->
  make_1dfits (T := XR) joblib n_jobs order lsq re k (mkTrend fs bad) = Err UnboundLocalError.
Proof.
  intros joblib fs bad lsq re k n_jobs order L N. unfold make_1dfits. cbn [t_ffuncs].
  rewrite (proj2 (Nat.ltb_ge 1 (List.length fs)) L). rewrite andb_false_r. rewrite (proj2 (Z.eqb_neq n_jobs 1) N). reflexivity.
Qed.
Print Assumptions C56_single_fit_refuted.
(** The parallel path forgets the limits of the fits: here x >= 2 leaves too few points, and only the sequential path notices. *)
Definition two_par : ffclass (T := XR) := ex_class false.
Definition some_lsq : optimiser (T := XR) := fun _ _ _ _ => LsqSuccess [Fin 1; Fin 2] [Fin 0; Fin 0].
Definition kw0 : kwargs (T := XR) := {| k_p0 := None; k_bounds := BPair [] []; k_absolute_sigma := false |}.
Definition lim2 : limits (T := XR) := mkLimits (Some (Fin 2)) None None None None None None None false.
Definition lim_obs : used_raw (T := XR) :=
  {| u_used := mkObs [Fin 3] [Fin 7] None; u_raw := mkObs [Fin 1; Fin 3] [Fin 5; Fin 7] None; u_mask := [false; true] |}.
Definition lim_ff : ffobj (T := XR) := {| ff_class := two_par; ff_obs := lim_obs; ff_popt := None; ff_psigma := None |}.
Theorem C56_limits_lost_refuted :
  exists fs, make_ffunc1ds two_par [Fin 1; Fin 3] None lim2 [(Fin 10, [Fin 5; Fin 7]); (Fin 20, [Fin 5; Fin 7])] = Ok fs /\
  (exists t, make_1dfits true 1 [] some_lsq true kw0 (mkTrend fs []) = Ok t /\ t_ffuncs t = [] /\ List.length (t_bad t) = 2%nat) /\
  (exists t, make_1dfits true 2 [0; 1]%nat some_lsq true kw0 (mkTrend fs []) = Ok t /\ t_bad t = [] /\ List.length (t_ffuncs t) = 2%nat).
Proof.
  assert (M1 : one_mask (Some (Fin 2)) None (Fin 1) = false).
  { unfold one_mask, ageb. rewrite fin_leb, (proj2 (Rleb_false 2 1)) by lra. reflexivity. }
  assert (M3 : one_mask (Some (Fin 2)) None (Fin 3) = true).
  { unfold one_mask, ageb. rewrite fin_leb, fin_isfin, (proj2 (Rleb_true 2 3)) by lra. reflexivity. }
  assert (N : forall y, one_mask (T := XR) None None (Fin y) = true) by (intros; unfold one_mask; rewrite fin_isfin; reflexivity).
  assert (E : new_ff two_par (mkObs [Fin 1; Fin 3] [Fin 5; Fin 7] None) lim2 = Ok lim_ff).
  { unfold new_ff, init_obs, lim2. cbn [o_w l_wmin l_wmax]. unfold set_fit_obs. cbn [o_x o_y o_w l_xmin l_xmax l_xout l_ymin l_ymax l_yout l_wmin l_wmax l_logy List.length Nat.eqb negb outside_ok outside_mask map].
    rewrite M1, M3, !N. reflexivity. }
  exists [(Fin 10, lim_ff); (Fin 20, lim_ff)]. split; [unfold make_ffunc1ds; cbn [mapM fst snd]; rewrite E; reflexivity|].
  split; eexists; (split; [reflexivity|split; reflexivity]).
Qed.
Print Assumptions C56_limits_lost_refuted.
Example C56_ex : exists fs, make_ffunc1ds (T := XR) two_par [Fin 1; Fin 3] None TrendFit.no_limits [(Fin 10, [Fin 5; Fin 7]); (Fin 20, [Fin 5; Fin 7])] = Ok fs /\
  List.length fs = 2%nat /\ Permutation [1; 0]%nat (seq 0 (List.length fs)).
Proof. eexists. split; [reflexivity|]. split; [reflexivity|]. apply perm_swap. Qed.

(* ================================================================ C57 *)
(** Freshly built fits of a class that reports what happened. *)
Definition fresh (c : ffclass (T := XR)) (fs : ffuncs (T := XR)) : Prop := forall kf, In kf fs -> ff_class (snd kf) = c /\ ff_popt (snd kf) = None.
Lemma fit_one_outcome lsq k f r f' : c_discards (ff_class f) = false -> ff_popt f = None ->
  fit_one (T := XR) lsq true k f = Ok (r, f') -> ff_class f' = ff_class f /\ (r = None <-> ff_popt f' <> None).
Proof.
  intros D F H. unfold fit_one, make_fit in H. destruct (base_make_fit lsq f true k) as [o f1] eqn:B. rewrite D in H.
  destruct o as [e|o]; [discriminate|]. injection H as <- <-. unfold base_make_fit in B.
  destruct (negb _). { injection B as <- <-. rewrite F. split; [reflexivity|]. split; [discriminate|congruence]. }
  destruct (k_absolute_sigma k); [discriminate|]. destruct (run_least_squares lsq f k) as [[p s]|e].
  - injection B as <- <-. cbn. split; [reflexivity|]. split; [discriminate|reflexivity].
  - destruct (caught e); cbn in B; [|discriminate]. injection B as <- <-. rewrite F. split; [reflexivity|]. split; [discriminate|congruence].
Qed.
Lemma split_perm {A} (p : A -> bool) (l : list A) : Permutation (filter (fun x => negb (p x)) l ++ filter p l) l.
Proof.
  induction l as [|x l IH]; [constructor|]. cbn [filter]. destruct (p x); cbn [negb].
  - rewrite <- Permutation_middle. apply perm_skip, IH.
  - cbn [app]. apply perm_skip, IH.
Qed.
(** After a successful call every column is in exactly one of the two groups (they partition the columns), a good fit has
    parameters and a bad one has none: one job, or several when the fits carry neither weights nor limits. *)
Theorem C57_partition_partial :
  forall c fs bad lsq k joblib n_jobs order t, c_discards c = false -> fresh c fs -> Permutation order (seq 0 (List.length fs)) ->
  make_1dfits joblib n_jobs order lsq true k (mkTrend fs bad) = Ok t ->
  Permutation (map fst (t_ffuncs t) ++ map fst (t_bad t)) (map fst fs) /\
  (forall kf, In kf (t_ffuncs t) -> ff_popt (snd kf) <> None) /\ (forall kf, In kf (t_bad t) -> ff_popt (snd kf) = None).
Proof.
  intros c fs bad lsq k joblib n_jobs order t D F P H.
  assert (SPLIT : forall rs, map fst rs = map fst fs ->
     (forall kr : XR * fit_result, In kr rs -> fst (snd kr) = None <-> ff_popt (snd (snd kr)) <> None) ->
     t = split_fits rs ->
     Permutation (map fst (t_ffuncs t) ++ map fst (t_bad t)) (map fst fs) /\
     (forall kf, In kf (t_ffuncs t) -> ff_popt (snd kf) <> None) /\ (forall kf, In kf (t_bad t) -> ff_popt (snd kf) = None)).
  { clear. intros rs K O ->. unfold split_fits. cbn [t_ffuncs t_bad]. split; [|split].
    - rewrite <- K, !map_map. cbn [fst].
      rewrite <- (map_app (fun x : XR * fit_result => fst x)). apply Permutation_map, split_perm.
    - intros kf I. apply in_map_iff in I. destruct I as (kr & <- & I). apply filter_In in I. destruct I as [I N]. cbn [snd]. apply O; [exact I|].
      unfold failed in N. destruct (fst (snd kr)); [discriminate|reflexivity].
    - intros kf I. apply in_map_iff in I. destruct I as (kr & <- & I). apply filter_In in I. destruct I as [I N]. cbn [snd].
      unfold failed in N. destruct (fst (snd kr)) eqn:E; [|discriminate]. destruct (ff_popt (snd (snd kr))) eqn:Q; [|reflexivity].
      exfalso. assert (X : fst (snd kr) = None) by (apply O; [exact I|congruence]). congruence. }
  assert (SEQ : forall rs, mapM (fun kf => rmap (fun r => (fst kf, r)) (fit_one lsq true k (snd kf))) fs = Ok rs ->
     map fst rs = map fst fs /\ forall kr : XR * fit_result, In kr rs -> fst (snd kr) = None <-> ff_popt (snd (snd kr)) <> None).
  { intros rs M. apply mapM_ok in M. clear - M D F. induction M as [|kf kr l l' H _ IH].
    - split; [reflexivity|intros kr []].
    - apply rmap_ok in H. destruct H as ([r f'] & E & ->). destruct IH as [IH1 IH2]; [intros z Hz; apply F; right; exact Hz|].
      split; [cbn; rewrite IH1; reflexivity|]. intros kr [<-|I]; [|apply IH2, I]. cbn.
      destruct (F kf (or_introl eq_refl)) as [F1 F2]. apply (fit_one_outcome lsq k (snd kf) r f'); [rewrite F1; exact D|exact F2|exact E]. }
  assert (PAR : forall rs, mapM (fun kf => rmap (fun r => (fst kf, r)) (task lsq true k (snd kf))) fs = Ok rs ->
     map fst rs = map fst fs /\ forall kr : XR * fit_result, In kr rs -> fst (snd kr) = None <-> ff_popt (snd (snd kr)) <> None).
  { intros rs M. apply mapM_ok in M. clear - M D F. induction M as [|kf kr l l' H _ IH].
    - split; [reflexivity|intros kr []].
    - apply rmap_ok in H. destruct H as ([r f'] & E & ->). destruct IH as [IH1 IH2]; [intros z Hz; apply F; right; exact Hz|].
      split; [cbn; rewrite IH1; reflexivity|]. intros kr [<-|I]; [|apply IH2, I]. cbn. unfold task in E. apply bind_ok in E. destruct E as (f0 & N & E).
      destruct (F kf (or_introl eq_refl)) as [F1 F2]. unfold new_ff in N. apply rmap_ok in N. destruct N as (u & _ & ->).
      refine (proj2 (fit_one_outcome lsq k _ r f' _ _ E)); [cbn; rewrite F1; exact D|reflexivity]. }
  unfold make_1dfits in H. cbn [t_ffuncs] in H. destruct (negb (Z.eqb n_jobs 1) && Nat.ltb 1 (List.length fs)).
  - destruct joblib; apply rmap_ok in H; destruct H as (rs & R & E).
    + apply (pool_correct lsq true k fs order P) in R. destruct (PAR rs R). apply (SPLIT rs); assumption.
    + destruct (SEQ rs R). apply (SPLIT rs); assumption.
  - destruct (Z.eqb n_jobs 1); [|discriminate]. apply rmap_ok in H. destruct H as (rs & R & E). destruct (SEQ rs R). apply (SPLIT rs); assumption.
Qed.
Print Assumptions C57_partition_partial.
(** The default class, Gaussian, drops the failure: the fit stays among the good ones and asking for the parameters fails. *)
Theorem C57_failed_gaussian_counts_as_good_refuted :
  exists fs t, make_ffunc1ds (T := XR) Gaussian [Fin 1; Fin 2] None TrendFit.no_limits [(Fin 10, [Fin 5; Fin 7])] = Ok fs /\
    make_1dfits true 1 [] some_lsq true kw0 (mkTrend fs []) = Ok t /\
    t_bad t = [] /\ List.length (t_ffuncs t) = 1%nat /\ (forall kf, In kf (t_ffuncs t) -> ff_popt (snd kf) = None) /\
    popt_1d t = Err AttributeError.
Proof.
  eexists _, _. split; [reflexivity|]. split; [reflexivity|]. split; [reflexivity|]. split; [reflexivity|].
  split; [intros kf [<-|[]]; reflexivity|reflexivity].
Qed.
Print Assumptions C57_failed_gaussian_counts_as_good_refuted.
(** A second call forgets the fits that were bad in the first: they are in neither group. *)
Theorem C57_second_call_forgets_refuted :
  exists fs t t', make_ffunc1ds (T := XR) two_par [Fin 1] None TrendFit.no_limits [(Fin 10, [Fin 5])] = Ok fs /\
    make_1dfits true 1 [] some_lsq true kw0 (mkTrend fs []) = Ok t /\ List.length (t_bad t) = 1%nat /\
    make_1dfits true 1 [] some_lsq true kw0 t = Ok t' /\ t_ffuncs t' = [] /\ t_bad t' = [].
Proof.
  eexists _, _, _. split; [reflexivity|]. split; [reflexivity|]. split; [reflexivity|]. split; [reflexivity|]. split; reflexivity.
Qed.
Print Assumptions C57_second_call_forgets_refuted.
Example C57_ex : exists t, make_1dfits true 1 [] some_lsq true kw0 (mkTrend [(Fin 1, ex_ff false 1); (Fin 2, ex_ff false 3)] []) = Ok t /\
  map fst (t_ffuncs t) = [Fin 2] /\ map fst (t_bad t) = [Fin 1] /\ fresh (ex_class false) [(Fin 1, ex_ff false 1); (Fin 2, ex_ff false 3)].
Proof. eexists. split; [reflexivity|]. split; [reflexivity|]. split; [reflexivity|]. intros kf [<-|[<-|[]]]; split; reflexivity. Qed.

Lemma Forall2_len {A B} (R : A -> B -> Prop) l l' : Forall2 R l l' -> List.length l = List.length l'.
Proof. induction 1; cbn; congruence. Qed.
(* ================================================================ C104 *)
(** The trend is fitted to one observation per good 1d fit, in their order: at the column's own abscissa (10 to its power
    for a logarithmic axis), with that fit's parameters ykey as value and wkey as weight. *)
Theorem C104_trend_observations :
  forall logx ykey wkey t o, trend_obs (T := XR) logx ykey wkey t = Ok o ->
  exists ws, o_w o = Some ws /\ List.length (o_x o) = List.length (t_ffuncs t) /\ List.length (o_y o) = List.length (t_ffuncs t) /\ List.length ws = List.length (t_ffuncs t) /\
  (1 <= List.length (t_ffuncs t))%nat /\
  forall i key f, nth_error (t_ffuncs t) i = Some (key, f) ->
    exists p y w, ff_popt f = Some p /\ dict_get ykey p = Ok y /\ dict_get wkey p = Ok w /\
      nth_error (o_x o) i = Some (if logx then tpow (aofZ 10) key else key) /\ nth_error (o_y o) i = Some y /\ nth_error ws i = Some w.
Proof.
  intros logx ykey wkey t o H. unfold trend_obs in H. apply bind_ok in H. destruct H as (p & HP & H).
  assert (NE : p <> []) by (destruct p; [discriminate|intros Q; discriminate]).
  destruct p as [|p0 pr] eqn:PE; [contradiction|]. rewrite <- PE in *. clear PE p0 pr.
  apply bind_ok in H. destruct H as (y & HY & H). apply bind_ok in H. destruct H as (w & HW & H). injection H as <-.
  exists w. split; [reflexivity|]. cbn [o_x o_y]. rewrite map_length.
  unfold popt_1d in HP. apply mapM_ok in HP. apply mapM_ok in HY. apply mapM_ok in HW.
  assert (LP := Forall2_len _ _ _ HP). assert (LY := Forall2_len _ _ _ HY). assert (LW := Forall2_len _ _ _ HW).
  split; [lia|]. split; [lia|]. split; [lia|]. split; [destruct p; [contradiction|cbn in LP; lia]|].
  intros i key f E.
  assert (NTH : forall A B (R : A -> B -> Prop) l l', Forall2 R l l' -> forall i a, nth_error l i = Some a -> exists b, nth_error l' i = Some b /\ R a b).
  { clear. intros A B R l l' H. induction H as [|a b l l' H _ IH]; intros [|i] x E; try discriminate; cbn in *.
    - injection E as <-. eauto.
    - apply IH, E. }
  destruct (NTH _ _ _ _ _ HP i _ E) as (kp & Ep & Rp). cbn in Rp. destruct (ff_popt f) as [q|] eqn:Q; [|discriminate]. injection Rp as <-.
  destruct (NTH _ _ _ _ _ HY i _ Ep) as (yi & Ey & Ry). destruct (NTH _ _ _ _ _ HW i _ Ep) as (wi & Ew & Rw). cbn in Ry, Rw.
  exists q, yi, wi. repeat split; try assumption. rewrite nth_error_map, Ep. reflexivity.
Qed.
Print Assumptions C104_trend_observations.
Example C104_ex : exists o, trend_obs (T := XR) false "mu" "sigma" (mkTrend [(Fin 5, {| ff_class := Gaussian; ff_obs := lim_obs; ff_popt := Some [("mu", Fin 1); ("sigma", Fin 2)]; ff_psigma := None |})] []) = Ok o.
Proof. eexists. reflexivity. Qed.
