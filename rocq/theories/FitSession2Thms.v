(** Theorems about the history of a fit object, its uncertainties and the default start: C190, C191, C219, C220. *)
From Coq Require Import Reals Lra Lia List String Bool Arith ZArith.
From Verif Require Import Py PyStr Num FitCore FitPlot FitCoreThms FitFuncs FitSession FitSessionThms.
Import ListNotations.
Open Scope string_scope.
Open Scope list_scope.
Open Scope R_scope.

(* ---------------------------------------------------------------- specification *)
(** What a user does to a fit object: fit it, or give it other observations (refused ones change nothing). *)
Inductive act := AFit (solve : solver (T := XR)) (cov : covariance (T := XR)) (return_exception : bool) (k : kws (T := XR))
               | AObs (raw : obs (T := XR)) (lim : limits (T := XR)).
Definition did (a : act) (o : session (T := XR)) : session (T := XR) :=
  match a with
  | AFit solve cov re k => snd (fit solve cov o re k)
  | AObs raw lim => match set_fit_obs raw lim with Ok u => with_obs u o | Err _ => o end
  end.
Definition completes (a : act) (o : session (T := XR)) : Prop :=
  match a with AFit solve cov re k => fst (fit solve cov o re k) = Returned None | AObs _ _ => False end.
Definition history (l : list act) (o : session (T := XR)) : session (T := XR) := fold_left (fun s a => did a s) l o.
(** Two objects report the same fit. *)
Definition same_reports (o o' : session (T := XR)) : Prop :=
  f_popt o = f_popt o' /\ f_psigma o = f_psigma o' /\ f_chisq o = f_chisq o' /\ f_bounds o = f_bounds o' /\
  f_result o = f_result o' /\ f_tex o = f_tex o' /\ f_plot o = f_plot o'.
(** Calls without shape errors: the optimiser and the covariance return one entry per parameter, the covariance does not fail,
    and the bounds and the start (if given) are for the parameters. *)
Definition orderly (args : list string) (a : act) : Prop :=
  match a with
  | AObs _ _ => True
  | AFit solve cov _ k =>
      (forall f u s b r, solve f u s b = LSuccess r -> List.length (r_x r) = List.length args /\
         exists diag, cov r = Ok diag /\ List.length diag = List.length args) /\
      bounds_fit (s_bounds k) args /\ s_p0 k <> Some None /\ (forall p, s_p0 k = Some (Some p) -> List.length p = List.length args)
  end.
(** A class that always has an initial guess of its own, or raises. *)
Definition guesses (c : ffclass (T := XR)) : Prop :=
  forall u, match c_p0 c u with Ok (Some p) => List.length p = List.length (c_args c) | Ok None => False | Err _ => True end.

(* ---------------------------------------------------------------- lemmas *)
Lemma side_says_fun sd i a b : side_says sd i a -> side_says sd i b -> a = b.
Proof. destruct sd; cbn; congruence. Qed.
Lemma bounds_say_fun bd i name a b a' b' : bounds_say bd i name a b -> bounds_say bd i name a' b' -> a = a' /\ b = b'.
Proof.
  destruct bd as [lo hi|d]; cbn [bounds_say].
  - intros [H1 H2] [H3 H4]. split; eapply side_says_fun; eassumption.
  - intros H1 H2. apply dict_get_first in H1. apply dict_get_first in H2. rewrite H1 in H2. injection H2 as -> ->. auto.
Qed.
Lemma same_list (n : nat) (l l' : list XR) : List.length l = n -> List.length l' = n ->
  (forall i, (i < n)%nat -> nth_error l i = nth_error l' i) -> l = l'.
Proof.
  revert l l'. induction n as [|n IH]; intros [|x l] [|y l'] L L' H; try discriminate; [reflexivity|].
  pose proof (H 0%nat ltac:(lia)) as E. cbn in E. injection E as ->. f_equal. apply IH; [cbn in *; lia..|].
  intros i I. exact (H (S i) ltac:(lia)).
Qed.
Lemma converges_at solve o k lo hi st r :
  List.length lo = List.length (c_args (f_class o)) -> List.length hi = List.length (c_args (f_class o)) ->
  (forall i name, nth_error (c_args (f_class o)) i = Some name ->
     exists a b, nth_error lo i = Some a /\ nth_error hi i = Some b /\ bounds_say (s_bounds k) i name a b) ->
  solve (c_fun (f_class o)) (u_used (f_obs o)) st (lo, hi) = LSuccess r -> converges solve o (s_bounds k) st r.
Proof.
  intros L1 L2 P SV lo' hi' L1' L2' P'.
  assert (E : forall i, (i < List.length (c_args (f_class o)))%nat -> nth_error lo' i = nth_error lo i /\ nth_error hi' i = nth_error hi i).
  { intros i I. destruct (nth_error (c_args (f_class o)) i) as [name|] eqn:N; [|apply nth_error_None in N; lia].
    destruct (P i name N) as (a & b & A1 & B1 & S1). destruct (P' i name N) as (a' & b' & A2 & B2 & S2).
    destruct (bounds_say_fun _ _ _ _ _ _ _ S1 S2) as [-> ->]. split; congruence. }
  rewrite (same_list _ lo' lo L1' L1 (fun i I => proj1 (E i I))), (same_list _ hi' hi L2' L2 (fun i I => proj2 (E i I))). exact SV.
Qed.
Lemma fit_or_nothing solve cov o re k raw lim :
  NoDup (c_args (f_class o)) -> guesses (f_class o) -> set_fit_obs raw lim = Ok (f_obs o) ->
  orderly (c_args (f_class o)) (AFit solve cov re k) ->
  (fst (fit solve cov o re k) = Returned None /\ f_class (snd (fit solve cov o re k)) = f_class o /\ f_obs (snd (fit solve cov o re k)) = f_obs o)
  \/ (snd (fit solve cov o re k) = o /\ fst (fit solve cov o re k) <> Returned None).
Proof.
  intros ND G OB (OR & BF & SN & SL).
  destruct (Nat.leb (List.length (c_args (f_class o))) (nobs (f_obs o))) eqn:LE.
  2:{ right. unfold fit. rewrite LE. cbn [negb]. split; [reflexivity|]. destruct re; discriminate. }
  destruct (s_absolute k) eqn:AB.
  { right. unfold fit. rewrite LE, AB. cbn [negb]. split; [reflexivity|]. discriminate. }
  destruct (run_ls solve o k) as [[[r start] o1]|e] eqn:R.
  2:{ right. unfold fit. rewrite LE, AB, R. cbn [negb]. split; [reflexivity|]. destruct (caught e && re)%bool; discriminate. }
  left. pose proof R as R'. unfold run_ls in R'. pose proof (G (u_used (f_obs o))) as GP.
  destruct (c_p0 (f_class o) (u_used (f_obs o))) as [[p|]|e] eqn:P0; [|contradiction|discriminate]. cbn [bind] in R'.
  set (st := match s_p0 k with Some (Some q) => q | _ => p end).
  assert (SP : match s_p0 k with Some q => q | None => Some p end = Some st).
  { unfold st. destruct (s_p0 k) as [[q|]|]; [reflexivity|contradiction|reflexivity]. }
  assert (LST : List.length st = List.length (c_args (f_class o))).
  { unfold st. destruct (s_p0 k) as [[q|]|]; [exact (SL q eq_refl)|contradiction|exact GP]. }
  rewrite SP in R'. cbv zeta in R'. rewrite LST in R'.
  destruct (bounds_given _ _ (s_bounds k) eq_refl BF) as (lo & hi & EB & LB1 & LB2 & PB). rewrite EB in R'. cbn [bind] in R'.
  destruct (solve (c_fun (f_class o)) (u_used (f_obs o)) st (lo, hi)) as [e| |r'] eqn:SV; try discriminate.
  assert (RR : r' = r /\ st = start) by (split; congruence). destruct RR as [-> SS]. clear R'.
  destruct (OR _ _ _ _ _ SV) as (LX & diag & CD & LD).
  destruct (C217_converged_fit_is_complete solve cov o re k raw lim p st r diag ND OB) as (o' & t & pl & E & EC & EO & _); try assumption; try reflexivity.
  - apply Nat.leb_le. exact LE.
  - exact (converges_at _ _ _ _ _ _ _ LB1 LB2 PB SV).
  - rewrite E. cbn [fst snd]. auto.
Qed.
Lemma same_refl o : same_reports o o.
Proof. repeat split. Qed.

(* ================================================================ C219 *)
(** Over every history of fits and replaced observations, the object reports nothing until a fit completes, and from
    then on exactly what it reported right after the last fit that completed: parameters, uncertainties, chi-squared, bounds,
    optimiser result, TeX info and plotter of one and the same fit. *)
Theorem C219_reports_of_one_fit :
  forall c raw lim u0 acts, NoDup (c_args c) -> guesses c -> set_fit_obs raw lim = Ok u0 ->
  (forall a, In a acts -> orderly (c_args c) a) ->
  let start := new_session c u0 in
  let now := history acts start in
  (same_reports now start /\ (forall before a after, acts = before ++ a :: after -> ~ completes a (history before start))) \/
  (exists before a after, acts = before ++ a :: after /\ completes a (history before start) /\
     same_reports now (history (before ++ [a]) start) /\
     (forall b1 a1 b2, after = b1 ++ a1 :: b2 -> ~ completes a1 (history (before ++ a :: b1) start))).
Proof.
  intros c raw lim u0 acts ND G OB OR start now.
  assert (INV : f_class now = c /\ (exists raw' lim', set_fit_obs raw' lim' = Ok (f_obs now)) /\
    ((same_reports now start /\ (forall before a after, acts = before ++ a :: after -> ~ completes a (history before start))) \/
    (exists before a after, acts = before ++ a :: after /\ completes a (history before start) /\
     same_reports now (history (before ++ [a]) start) /\
     (forall b1 a1 b2, after = b1 ++ a1 :: b2 -> ~ completes a1 (history (before ++ a :: b1) start))))).
  2:{ destruct INV as (_ & _ & H). exact H. }
  subst now. induction acts as [|a acts IH] using rev_ind.
  { split; [reflexivity|]. split; [exists raw, lim; exact OB|]. left. split; [apply same_refl|].
    intros before a after E. destruct before; discriminate. }
  destruct IH as (IC & (raw' & lim' & IO) & IR); [intros x H; apply OR, in_or_app; left; exact H|].
  assert (HA : history (acts ++ [a]) start = did a (history acts start)) by (unfold history; rewrite fold_left_app; reflexivity).
  assert (OA : orderly (c_args c) a) by (apply OR, in_or_app; right; left; reflexivity).
  set (now := history acts start) in *.
  (* a step that completes nothing and leaves the reports *)
  assert (QUIET : forall now', same_reports now' now -> ~ completes a now -> history (acts ++ [a]) start = now' ->
    (same_reports now' start /\ (forall before b after, acts ++ [a] = before ++ b :: after -> ~ completes b (history before start))) \/
    (exists before b after, acts ++ [a] = before ++ b :: after /\ completes b (history before start) /\
     same_reports now' (history (before ++ [b]) start) /\
     (forall b1 a1 b2, after = b1 ++ a1 :: b2 -> ~ completes a1 (history (before ++ b :: b1) start)))).
  { intros now' SR NC _. destruct IR as [[S0 N0]|(before & b & after & E & CB & S0 & N0)].
    - left. split.
      + unfold same_reports in *. decompose [and] SR. decompose [and] S0. repeat split; congruence.
      + intros before b after E. destruct (exists_last (l := b :: after)) as (l & x & Q); [discriminate|].
        rewrite Q, app_assoc in E. apply app_inj_tail in E. destruct E as [E1 ->].
        destruct l as [|y l].
        * cbn in Q. injection Q as -> ->. rewrite app_nil_r in E1. subst before. exact NC.
        * cbn in Q. injection Q as -> ->. apply (N0 before y l). exact E1.
    - right. exists before, b, (after ++ [a]). split; [rewrite E, <- app_assoc; reflexivity|]. split; [exact CB|]. split.
      + unfold same_reports in *. decompose [and] SR. decompose [and] S0. repeat split; congruence.
      + intros b1 a1 b2 Q. destruct (exists_last (l := a1 :: b2)) as (l & x & Q2); [discriminate|].
        rewrite Q2, app_assoc in Q. apply app_inj_tail in Q. destruct Q as [Q1 ->].
        destruct l as [|y l].
        * cbn in Q2. injection Q2 as -> ->. rewrite app_nil_r in Q1. subst b1.
          replace (before ++ b :: after) with acts by exact E. exact NC.
        * cbn in Q2. injection Q2 as -> ->. apply (N0 b1 y l). exact Q1. }
  rewrite HA in *. destruct a as [solve cov re k|raw2 lim2]; cbn [did] in *.
  - rewrite <- IC in ND, G, OA.
    destruct (fit_or_nothing solve cov now re k raw' lim' ND G IO OA) as [(DONE & EC & EO)|(SAME & NC)].
    + split; [congruence|]. split; [exists raw', lim'; congruence|]. right. exists acts, (AFit solve cov re k), [].
      split; [reflexivity|]. split; [exact DONE|]. split; [rewrite HA; apply same_refl|].
      intros b1 a1 b2 Q. destruct b1; discriminate.
    + rewrite SAME in *. split; [exact IC|]. split; [exists raw', lim'; exact IO|].
      apply QUIET; [apply same_refl|exact NC|reflexivity].
  - destruct (set_fit_obs raw2 lim2) as [u2|e] eqn:S2.
    + split; [exact IC|]. split; [exists raw2, lim2; exact S2|]. apply QUIET; [repeat split|cbn; auto|reflexivity].
    + split; [exact IC|]. split; [exists raw', lim'; exact IO|]. apply QUIET; [apply same_refl|cbn; auto|reflexivity].
Qed.
Print Assumptions C219_reports_of_one_fit.
(** Examples: a power law, refitted. *)
Lemma nd_Ab : NoDup ["A"; "b"]. Proof. repeat constructor; cbn; intuition discriminate. Qed.
Lemma nd_mb : NoDup ["m"; "b"]. Proof. repeat constructor; cbn; intuition discriminate. Qed.
Definition good_cov : covariance (T := XR) := fun _ => Ok [Fin 1; Fin 1].
Definition bad_cov : covariance (T := XR) := fun _ => Err ValueError.
Definition find (r : lsqr (T := XR)) : solver (T := XR) := fun _ _ _ _ => LSuccess r.
Definition res1 : lsqr (T := XR) := mkRes [Fin 5; Fin 6] (Fin 0) [Fin 0; Fin 0; Fin 0].
Definition res2 : lsqr (T := XR) := mkRes [Fin 8; Fin 9] (Fin 0) [Fin 0; Fin 0; Fin 0].
Definition free : kws (T := XR) := mkKws None (Sides (One MInf) (One PInf)) false.
Definition positive : kws (T := XR) := mkKws None (Sides (One (Fin 0)) (One PInf)) false.
Example C219_ex :
  guesses (PowerLaw (T := XR)) /\ (forall a, In a [AFit (find res1) good_cov true free; AObs ex_raw no_limits; AFit (fun _ _ _ _ => LNoSuccess) good_cov true free] ->
     orderly (c_args (PowerLaw (T := XR))) a) /\
  completes (AFit (find res1) good_cov true free) (new_session PowerLaw ex_used).
Proof.
  split; [intros u; reflexivity|]. split.
  - intros a [<-|[<-|[<-|[]]]]; cbn [orderly]; auto.
    + split; [|split; [split; exact I|split; [discriminate|discriminate]]].
      intros f u s b r E. unfold find in E. injection E as <-. split; [reflexivity|]. exists [Fin 1; Fin 1]. split; reflexivity.
    + split; [|split; [split; exact I|split; [discriminate|discriminate]]]. intros f u s b r E. discriminate.
  - cbn [completes].
    destruct (C217_converged_fit_is_complete (find res1) good_cov (new_session PowerLaw ex_used) true free
      ex_raw no_limits [aofZ 1; aofZ 1] [aofZ 1; aofZ 1] res1 [Fin 1; Fin 1]) as (o' & t & pl & E & _);
      try reflexivity; try (cbn; discriminate).
    + exact nd_Ab.
    + cbn. lia.
    + split; exact I.
    + intros lo hi _ _ _. reflexivity.
Qed.
(** Without these conditions the reports can mix two fits: after a fit whose covariance cannot be computed - which is raised even
    if exceptions are to be returned - the bounds are those of the failed fit and the parameters those of the earlier one. *)
Theorem C219_bounds_of_a_failed_fit_refuted :
  exists o1, fit (find res1) good_cov (new_session PowerLaw ex_used) true free = (Returned None, o1) /\
  has (f_popt o1) "A" (Fin 5) /\ has (f_bounds o1) "A" (MInf, PInf) /\
  exists o2, fit (find res2) bad_cov o1 true positive = (Raised ValueError, o2) /\
  has (f_popt o2) "A" (Fin 5) /\ has (f_bounds o2) "A" (Fin 0, PInf).
Proof.
  destruct (C217_converged_fit_is_complete (find res1) good_cov (new_session PowerLaw ex_used) true free
      ex_raw no_limits [aofZ 1; aofZ 1] [aofZ 1; aofZ 1] res1 [Fin 1; Fin 1]) as (o' & t & pl & E & EC & EO & _ & _ & _ & P & _);
      try reflexivity; try (cbn; discriminate).
  - exact nd_Ab.
  - cbn. lia.
  - split; exact I.
  - intros lo hi _ _ _. reflexivity.
  - destruct (P 0%nat "A" eq_refl) as (v & s & g & a & b & V & _ & _ & (SA & SB) & HP & _ & HB & _).
    cbn in V, SA, SB. subst a b. injection V as <-.
    exists o'. split; [exact E|]. split; [exact HP|]. split; [exact HB|].
    exists (with_bounds (combine ["A"; "b"] (combine [Fin 0; Fin 0] [PInf; PInf])) o').
    split; [|split; [exact HP|]].
    + unfold fit. rewrite EC, EO. cbn [f_class f_obs new_session].
      assert (LE : Nat.leb (List.length (c_args (PowerLaw (T := XR)))) (nobs ex_used) = true) by reflexivity.
      rewrite LE. cbn [negb s_absolute positive].
      assert (R : run_ls (find res2) o' positive = Ok (res2, [aofZ 1; aofZ 1], with_bounds (combine ["A"; "b"] (combine [Fin 0; Fin 0] [PInf; PInf])) o')).
      { unfold run_ls. rewrite EC, EO. reflexivity. }
      rewrite R. reflexivity.
    + apply (has_combine ["A"; "b"] [(Fin 0, PInf); (Fin 0, PInf)] 0); [exact nd_Ab|reflexivity|reflexivity].
Qed.
Print Assumptions C219_bounds_of_a_failed_fit_refuted.
(** A class that gives up its initial guess: after refitting a line to observations with a repeated abscissa the TeX info
    shows the parameters of the earlier fit. *)
Definition line_raw : obs (T := XR) := mkObs [Fin 1; Fin 2; Fin 3] [Fin 1; Fin 1; Fin 2] None.
Theorem C219_mixed_reports_refuted :
  exists acts o' t, o' = history acts (new_session Line {| u_used := line_raw; u_raw := line_raw; u_mask := [true; true; true] |}) /\
    has (f_popt o') "m" (Fin 8) /\ f_tex o' = Some t /\ has (Some (t_popt t)) "m" (Fin 5).
Proof.
  set (o0 := new_session Line {| u_used := line_raw; u_raw := line_raw; u_mask := [true; true; true] |}).
  assert (P0 : exists p0, c_p0 (f_class o0) (u_used (f_obs o0)) = Ok (Some p0) /\ List.length p0 = 2%nat).
  { cbn [o0 new_session f_class f_obs u_used c_p0 Line]. unfold line_p0.
    assert (D : dx_ok (o_x line_raw) = true).
    { unfold dx_ok, line_raw. cbn [o_x ediff1d forallb]. rewrite !fin_sub, !fin_abs, fin_ofZ.
      assert (Q : forall x y : R, y = x + 1 -> (aisfin (Fin (y - x)) && agtb (Fin (Rabs (y - x))) (Fin 0))%bool = true).
      { intros x y ->. apply andb_true_iff. split; [reflexivity|]. unfold agtb. apply Rltb_true.
        replace (x + 1 - x) with 1 by ring. rewrite Rabs_R1. lra. }
      rewrite !Q by lra. reflexivity. }
    rewrite D. eexists. split; reflexivity. }
  destruct P0 as (p0 & P0 & LP).
  destruct (C217_converged_fit_is_complete (find res1) good_cov o0 true free
      line_raw no_limits p0 p0 res1 [Fin 1; Fin 1]) as (o1 & t & pl & E & EC & EO & _ & ET & _ & P & _ & TP & _);
      try reflexivity; try assumption; try (cbn; discriminate).
  - exact nd_mb.
  - cbn. lia.
  - split; exact I.
  - intros lo hi _ _ _. reflexivity.
  - destruct (P 0%nat "m" eq_refl) as (v & s & g & a & b & V & _ & _ & _ & HP & _).
    cbn in V. injection V as <-.
    set (u2 := {| u_used := ex_rep_raw; u_raw := ex_rep_raw; u_mask := [true; true; true] |}).
    destruct (C218_repeated_abscissa_refuted (find res2) good_cov (with_obs u2 o1) true free res2 [Fin 1; Fin 1] 0%nat 1) as (o2 & E2 & H2 & T2 & _);
      try reflexivity; try (cbn; auto; lia).
    all: try (cbn [with_obs f_class]; rewrite EC; reflexivity).
    all: try (cbn; discriminate).
    + intros st lo hi _ _ _. reflexivity.
    + exists [AFit (find res1) good_cov true free; AObs ex_rep_raw no_limits; AFit (find res2) good_cov true free], o2, t.
      split; [|split; [exact H2|split; [rewrite T2; exact ET|rewrite TP; exact HP]]].
      unfold history. cbn [fold_left did]. rewrite E. cbn [snd].
      assert (S2 : set_fit_obs ex_rep_raw no_limits = Ok u2) by reflexivity.
      rewrite S2, E2. reflexivity.
Qed.
Print Assumptions C219_mixed_reports_refuted.

(* ================================================================ C190, C191 of the object*)
(** The chi-squared of the residuals [fs] per degree of freedom, and the costs that least_squares minimises for the
    "linear" and the "huber" loss with scale [c]. *)
Definition spare (n np : nat) : R := INR (n - np).
Definition half_sum (l : list R) : R := Rsum (map (fun f => f ^ 2) l) / 2.
Definition huber_rho (z : R) : R := if Rle_dec z 1 then z else 2 * sqrt z - 1.
Definition huber_cost (c : R) (l : list R) : R := Rsum (map (fun f => c ^ 2 * huber_rho ((f / c) ^ 2)) l) / 2.
(** With spare observations the uncertainties are the square roots of the variances, scaled by twice the cost per spare
    observation; without, they are infinite and the robust chi-squared is NaN. *)
Theorem C190_uncertainties_reported :
  forall (r : lsqr (T := XR)) np ds cost, r_cost r = Fin cost -> 0 <= cost -> (forall d, In d ds -> 0 <= d) ->
  ((np < List.length (r_fun r))%nat ->
     robust_chisq r np = Fin (2 * cost / spare (List.length (r_fun r)) np) /\
     uncertainties r np (map Fin ds) = map (fun d => Fin (sqrt (d * (2 * cost / spare (List.length (r_fun r)) np)))) ds) /\
  ((List.length (r_fun r) <= np)%nat ->
     robust_chisq r np = NaN /\ uncertainties r np (map Fin ds) = map (fun _ => PInf) ds).
Proof.
  intros r np ds cost EC PC PD. unfold uncertainties, robust_chisq. split; intros L.
  - assert (E : Nat.ltb np (List.length (r_fun r)) = true) by (apply Nat.ltb_lt; exact L). rewrite E.
    assert (P : 0 < spare (List.length (r_fun r)) np) by (unfold spare; apply lt_0_INR; lia).
    assert (Q : ((aofZ 2 * r_cost r) / aofZ (Z.of_nat (List.length (r_fun r)) - Z.of_nat np))%num = Fin (2 * cost / spare (List.length (r_fun r)) np)).
    { rewrite EC, !fin_ofZ, fin_mul. rewrite <- Nat2Z.inj_sub by lia. rewrite <- INR_IZR_INZ. fold (spare (List.length (r_fun r)) np).
      rewrite fin_div by lra. reflexivity. }
    rewrite Q. split; [reflexivity|]. rewrite map_map. apply map_ext_in. intros d D. rewrite fin_mul.
    apply fin_sqrt. apply Rmult_le_pos; [exact (PD d D)|]. apply Rmult_le_pos; [lra|left; apply Rinv_0_lt_compat, P].
  - assert (E : Nat.ltb np (List.length (r_fun r)) = false) by (apply Nat.ltb_ge; exact L). rewrite E.
    split; [reflexivity|]. rewrite map_map. apply map_ext. intros d. unfold inf. rewrite !fin_ofZ.
    change (xdiv (Fin 1) (Fin 0) = PInf). cbn.
    assert (Z : Reqb 0 0 = true) by (apply Reqb_true; reflexivity). rewrite Z. unfold inf_sign.
    assert (Z1 : Rltb 0 1 = true) by (apply Rltb_true; lra). rewrite Z1. reflexivity.
Qed.
Print Assumptions C190_uncertainties_reported.
Example C190_reported_ex : (2 < List.length (r_fun res1))%nat /\ r_cost res1 = Fin 0. Proof. split; [cbn; lia|reflexivity]. Qed.
Lemma huber_le z : 0 <= z -> 0 <= huber_rho z <= z.
Proof.
  intros H. unfold huber_rho. destruct (Rle_dec z 1) as [L|L]; [lra|].
  assert (S1 : sqrt z * sqrt z = z) by (apply sqrt_sqrt; exact H).
  assert (S2 : 1 <= sqrt z) by (rewrite <- sqrt_1; apply sqrt_le_1; lra).
  split; [lra|]. pose proof (pow2_ge_0 (sqrt z - 1)). nra.
Qed.
Lemma huber_sum c l : c <> 0 -> 0 <= huber_cost c l <= half_sum l.
Proof.
  intros NZ. unfold huber_cost, half_sum.
  assert (H : 0 <= Rsum (map (fun f => c ^ 2 * huber_rho ((f / c) ^ 2)) l) <= Rsum (map (fun f => f ^ 2) l)).
  { induction l as [|f l IH]; cbn [map Rsum]; [lra|].
    pose proof (huber_le ((f / c) ^ 2) (pow2_ge_0 _)) as Q. pose proof (pow2_ge_0 c) as C2.
    assert (F : c ^ 2 * (f / c) ^ 2 = f ^ 2) by (field; exact NZ). nra. }
  lra.
Qed.
Lemma huber_small c l : 0 < c -> (forall f, In f l -> Rabs f <= c) -> huber_cost c l = half_sum l.
Proof.
  intros P H. unfold huber_cost, half_sum. f_equal. f_equal. apply map_ext_in. intros f I. specialize (H f I).
  assert (Q : (f / c) ^ 2 <= 1).
  { assert (A : Rabs (f / c) <= 1).
    { unfold Rdiv. rewrite Rabs_mult, (Rabs_right (/ c)) by (apply Rle_ge; left; apply Rinv_0_lt_compat; exact P).
      apply Rmult_le_reg_r with c; [exact P|]. rewrite Rmult_assoc, Rinv_l by lra. lra. }
    rewrite <- (pow2_abs (f / c)). pose proof (Rabs_pos (f / c)). nra. }
  unfold huber_rho. destruct (Rle_dec _ 1); [|contradiction]. field. lra.
Qed.
(** The two chi-squared agree when the optimiser minimises the sum of squares; with the default loss the robust one is at most the
    linear one, and the same if no residual is larger than the scale. The linear one is infinite without spare observations. *)
Theorem C191_chisq_reported :
  forall f g pts np (r : lsqr (T := XR)), finite_on f g ->
  r_fun r = map (fun p => Fin (g (fst p) - snd p)) pts ->
  let fs := map (fun p => g (fst p) - snd p) pts in
  ((np < List.length pts)%nat ->
    (r_cost r = Fin (half_sum fs) -> robust_chisq r np = linear_chisq f np (real_obs pts) /\
        linear_chisq f np (real_obs pts) = Fin (ssr g pts / spare (List.length pts) np)) /\
    (forall c, 0 < c -> r_cost r = Fin (huber_cost c fs) ->
       exists a b, robust_chisq r np = Fin a /\ linear_chisq f np (real_obs pts) = Fin b /\ 0 <= a <= b /\
         ((forall p, In p pts -> Rabs (g (fst p) - snd p) <= c) -> a = b))) /\
  (np = List.length pts -> linear_chisq f np (real_obs pts) = PInf /\ robust_chisq r np = NaN).
Proof.
  intros f g pts np r HF ER fs.
  assert (LN : List.length (r_fun r) = List.length pts) by (rewrite ER, map_length; reflexivity).
  assert (HS : half_sum fs = ssr g pts / 2).
  { unfold half_sum, ssr, fs. rewrite map_map. f_equal. f_equal. apply map_ext. intros p. ring. }
  split.
  - intros L. destruct (C97_chisq_dof f g pts np HF (Nat.lt_le_incl _ _ L)) as [_ Q].
    destruct (Q ltac:(lia)) as (v & EV & VV & PV). unfold linear_chisq. rewrite EV.
    assert (SP : 0 < spare (List.length pts) np) by (unfold spare; apply lt_0_INR; lia).
    assert (RB : forall x, r_cost r = Fin x -> robust_chisq r np = Fin (2 * x / spare (List.length pts) np)).
    { intros x E. unfold robust_chisq. rewrite LN.
      assert (E1 : Nat.ltb np (List.length pts) = true) by (apply Nat.ltb_lt; exact L). rewrite E1, E, !fin_ofZ, fin_mul.
      rewrite <- Nat2Z.inj_sub by lia. rewrite <- INR_IZR_INZ. fold (spare (List.length pts) np). rewrite fin_div by lra. reflexivity. }
    split.
    + intros E. rewrite (RB _ E), HS, VV. fold (spare (List.length pts) np). split; [|reflexivity]. f_equal. field. lra.
    + intros c PC E. exists (2 * huber_cost c fs / spare (List.length pts) np), v.
      split; [exact (RB _ E)|]. split; [reflexivity|].
      pose proof (huber_sum c fs ltac:(lra)) as H. rewrite HS in H. rewrite VV. fold (spare (List.length pts) np).
      pose proof (Rinv_0_lt_compat _ SP) as SI. unfold Rdiv. split.
      * split; [apply Rmult_le_pos; lra|]. apply Rmult_le_compat_r; lra.
      * intros SM. rewrite (huber_small c fs PC), HS; [field; lra|].
        intros x I. unfold fs in I. apply in_map_iff in I. destruct I as (p & <- & I). exact (SM p I).
  - intros ->. destruct (C97_chisq_dof f g pts (List.length pts) HF (Nat.le_refl _)) as [[_ Q] _]. split.
    + unfold linear_chisq. rewrite (Q eq_refl). unfold inf. rewrite !fin_ofZ. change (xdiv (Fin 1) (Fin 0) = PInf). cbn.
      assert (Z : Reqb 0 0 = true) by (apply Reqb_true; reflexivity). rewrite Z. unfold inf_sign.
      assert (Z1 : Rltb 0 1 = true) by (apply Rltb_true; lra). rewrite Z1. reflexivity.
    + unfold robust_chisq. rewrite LN, Nat.ltb_irrefl. reflexivity.
Qed.
Print Assumptions C191_chisq_reported.
Example C191_reported_ex : huber_cost 1 [3] = 5 / 2 /\ half_sum [3] = 9 / 2.
Proof.
  unfold huber_cost, half_sum. cbn [map Rsum]. unfold huber_rho.
  replace ((3 / 1) ^ 2) with (3 * 3) by field. destruct (Rle_dec (3 * 3) 1) as [L|L]; [lra|].
  rewrite sqrt_square by lra. split; field.
Qed.

(* ================================================================ C220 *)
(** Where neither the caller nor the class has a start, the one taken lies within the bounds. *)
Theorem C220_default_start_is_feasible :
  forall lo hi : list XR, List.length lo = List.length hi ->
  (forall i a b, nth_error lo i = Some a -> nth_error hi i = Some b -> altb a b = true) ->
  List.length (feasible (lo, hi)) = List.length lo /\
  (forall i a b x, nth_error lo i = Some a -> nth_error hi i = Some b -> nth_error (feasible (lo, hi)) i = Some x ->
     exists v, x = Fin v /\ aleb a x = true /\ aleb x b = true).
Proof.
  intros lo hi. unfold feasible. cbn [fst snd]. revert hi.
  induction lo as [|a lo IH]; intros [|b hi] L H; try discriminate; cbn [map2].
  - split; [reflexivity|]. intros [|i] ? ? ? E; discriminate.
  - destruct (IH hi) as [IL IN]; [cbn in L; lia|intros i; exact (H (S i))|].
    split; [cbn; rewrite IL; reflexivity|]. intros [|i] a' b' x EA EB EX; [|exact (IN i a' b' x EA EB EX)].
    cbn in EA, EB, EX. injection EA as <-. injection EB as <-. injection EX as <-.
    pose proof (H 0%nat a b eq_refl eq_refl) as Q. clear -Q. unfold feasible1.
    assert (LE : forall u v : R, u <= v -> aleb (Fin u) (Fin v) = true).
    { intros u v I. change (xleb (Fin u) (Fin v) = true). unfold xleb. cbn. destruct (Rtotal_order u v) as [W|[W|W]].
      - apply Rltb_true in W. rewrite W. reflexivity.
      - subst. assert (Z : Reqb v v = true) by (apply Reqb_true; reflexivity). rewrite Z. apply orb_true_r.
      - lra. }
    destruct a as [a| | |], b as [b| | |]; try discriminate; cbn [aisfin]; change (aisfin (Fin ?z)) with true;
      change (aisfin PInf) with false; change (aisfin MInf) with false; cbn [andb].
    + apply Rltb_true in Q. rewrite fin_add. change (aofQ 1 2) with (Fin (1 / 2)). rewrite fin_mul.
      exists (1 / 2 * (a + b)). split; [reflexivity|]. split; apply LE; lra.
    + rewrite fin_ofZ, fin_add. exists (a + 1). split; [reflexivity|]. split; [apply LE; lra|reflexivity].
    + rewrite fin_ofZ, fin_sub. exists (b - 1). split; [reflexivity|]. split; [reflexivity|apply LE; lra].
    + rewrite fin_ofZ. exists 1. split; [reflexivity|]. split; reflexivity.
Qed.
Print Assumptions C220_default_start_is_feasible.
Example C220_ex : altb (Fin 2) PInf = true /\ altb MInf PInf = true. Proof. split; reflexivity. Qed.
