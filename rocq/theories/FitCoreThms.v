(** C47 (selection of observations), C48 (insufficient data), C49 (residuals and r^2), C50 (bounds by name),
    C96 (what popt describes over a history), C97 (chi^2 per degree of freedom). *)
From Coq Require Import List String Bool Arith ZArith Reals Lra Lia.
From Verif Require Import Py PyStr Num FitCore.
Import ListNotations.
Open Scope string_scope.
Open Scope list_scope.
Open Scope R_scope.

(* ---------------------------------------------------------------- specification *)
Definition at_least (lo : option XR) (a : R) : Prop :=
  match lo with None | Some MInf => True | Some (Fin l) => l <= a | Some _ => False end.
Definition at_most (hi : option XR) (a : R) : Prop :=
  match hi with None | Some PInf => True | Some (Fin h) => a <= h | Some _ => False end.
Definition outside (out : option (XR * XR)) (a : R) : Prop :=
  match out with None => True | Some (l, u) => at_most (Some l) a \/ at_least (Some u) a end.
(** The observation (x, y) with weight w (None: no weights) may be used under the limits. *)
Definition admissible (l : limits (T := XR)) (x y : XR) (w : option XR) : Prop :=
  exists a b, x = Fin a /\ y = Fin b /\
    at_least (l_xmin l) a /\ at_most (l_xmax l) a /\ outside (l_xout l) a /\
    at_least (l_ymin l) b /\ at_most (l_ymax l) b /\ outside (l_yout l) b /\
    match w with
    | None => True
    | Some wi => exists v c, wi = Fin v /\ (if l_logy l then b <> 0 /\ c = v / (b * ln 10) else c = v) /\
                             at_least (l_wmin l) c /\ at_most (l_wmax l) c
    end.
Definition nth_w (w : option (list XR)) (i : nat) : option XR := match w with None => None | Some l => nth_error l i end.

(* ---------------------------------------------------------------- lemmas *)
Lemma ageb_spec (a : R) l : ageb (Fin a) l = true <-> at_least (Some l) a.
Proof.
  unfold ageb. destruct l as [l| | |]; cbn [at_least].
  - rewrite fin_leb. apply Rleb_true.
  - split; [discriminate|contradiction].
  - split; [trivial|reflexivity].
  - split; [discriminate|contradiction].
Qed.
Lemma aleb_spec (a : R) h : aleb (Fin a) h = true <-> at_most (Some h) a.
Proof.
  destruct h as [h| | |]; cbn [at_most].
  - rewrite fin_leb. apply Rleb_true.
  - split; [trivial|reflexivity].
  - split; [discriminate|contradiction].
  - split; [discriminate|contradiction].
Qed.
Lemma one_mask_spec lo hi x : one_mask lo hi x = true <-> exists a, x = Fin a /\ at_least lo a /\ at_most hi a.
Proof.
  unfold one_mask. destruct x as [a| | |];
    try (split; [discriminate|intros (a & H & _); discriminate]).
  rewrite fin_isfin. cbn [andb].
  assert (L : (match lo with Some l => ageb (Fin a) l | None => true end) = true <-> at_least lo a)
    by (destruct lo; [apply ageb_spec|cbn; tauto]).
  assert (H : (match hi with Some h => aleb (Fin a) h | None => true end) = true <-> at_most hi a)
    by (destruct hi; [apply aleb_spec|cbn; tauto]).
  rewrite andb_true_iff, L, H. split.
  - intros [A B]. exists a. auto.
  - intros (a' & E & A & B). injection E as <-. auto.
Qed.
Lemma outside_mask_spec out a : outside_mask out (Fin a) = true <-> outside out a.
Proof.
  unfold outside_mask, outside. destruct out as [[l u]|]; [|tauto]. rewrite orb_true_iff, aleb_spec, ageb_spec. reflexivity.
Qed.
Lemma and_mask_nth a b i x y : nth_error a i = Some x -> nth_error b i = Some y -> nth_error (and_mask a b) i = Some (x && y).
Proof.
  revert b i. induction a as [|u a IH]; intros [|v b] [|i] H1 H2; try discriminate; cbn in *.
  - injection H1 as ->. injection H2 as ->. reflexivity.
  - apply IH; assumption.
Qed.
Lemma and_mask_length a b : List.length a = List.length b -> List.length (and_mask a b) = List.length a.
Proof. revert b. induction a as [|u a IH]; intros [|v b] H; try discriminate; cbn in *; [reflexivity|]. rewrite IH; lia. Qed.
Lemma map2_nth {A B C} (f : A -> B -> C) a b i x y : nth_error a i = Some x -> nth_error b i = Some y -> nth_error (map2 f a b) i = Some (f x y).
Proof.
  revert b i. induction a as [|u a IH]; intros [|v b] [|i] H1 H2; try discriminate; cbn in *.
  - injection H1 as ->. injection H2 as ->. reflexivity.
  - apply IH; assumption.
Qed.
Lemma map2_length {A B C} (f : A -> B -> C) a b : List.length a = List.length b -> List.length (map2 f a b) = List.length a.
Proof. revert b. induction a as [|u a IH]; intros [|v b] H; try discriminate; cbn in *; [reflexivity|]. rewrite IH; lia. Qed.
Lemma select_length {A} m (l : list A) : List.length m = List.length l -> List.length (select m l) = List.length (filter (fun b => b) m).
Proof. revert l. induction m as [|b m IH]; intros [|x l] H; try discriminate; cbn in *; [reflexivity|]. destruct b; cbn; rewrite IH; lia. Qed.
Lemma ln10_pos : 0 < ln 10. Proof. rewrite <- ln_1. apply ln_increasing; lra. Qed.
Lemma tln10 : tln (aofZ 10 : XR) = Fin (ln 10).
Proof.
  rewrite fin_ofZ. change (tln (Fin 10)) with (xln (Fin 10)). unfold xln.
  assert (E : Rltb 0 10 = true) by (apply Rltb_true; lra). rewrite E. reflexivity.
Qed.
Lemma log_weight wi b c : (wi / (Fin b * tln (aofZ 10)))%num = Fin c <-> exists v, wi = Fin v /\ b <> 0 /\ c = v / (b * ln 10).
Proof.
  rewrite tln10, fin_mul. pose proof ln10_pos as P.
  destruct (Req_EM_T b 0) as [->|N].
  - replace (0 * ln 10) with 0 by ring. split; [|intros (v & _ & Q & _); contradiction].
    destruct wi as [v| | |]; intros H; try discriminate; exfalso.
    + change ((Fin v / Fin 0)%num) with (xdiv (Fin v) (Fin 0)) in H. unfold xdiv in H.
      assert (E : Reqb 0 0 = true) by (apply Reqb_true; reflexivity). rewrite E in H. unfold inf_sign in H.
      destruct (Rltb 0 v); [discriminate|]. destruct (Rltb v 0); discriminate.
    + change ((PInf / Fin 0)%num) with (xdiv PInf (Fin 0)) in H. cbn in H. destruct (Rltb 0 0); discriminate.
    + change ((MInf / Fin 0)%num) with (xdiv MInf (Fin 0)) in H. cbn in H. destruct (Rltb 0 0); discriminate.
  - assert (NZ : b * ln 10 <> 0) by (apply Rmult_integral_contrapositive_currified; lra).
    destruct wi as [v| | |].
    + rewrite fin_div by exact NZ. split; [intros H; injection H as <-; eauto|].
      intros (v' & E & _ & ->). injection E as <-. reflexivity.
    + split; [|intros (v & E & _); discriminate]. change ((PInf / Fin (b * ln 10))%num) with (xdiv PInf (Fin (b * ln 10))). cbn.
      destruct (Rltb _ _); discriminate.
    + split; [|intros (v & E & _); discriminate]. change ((MInf / Fin (b * ln 10))%num) with (xdiv MInf (Fin (b * ln 10))). cbn.
      destruct (Rltb _ _); discriminate.
    + split; [discriminate|intros (v & E & _); discriminate].
Qed.
Lemma andb5 a b c d : a && b && c && d = true <-> a = true /\ b = true /\ c = true /\ d = true.
Proof. rewrite !andb_true_iff. tauto. Qed.

(* ================================================================ C47 *)
Theorem C47_used_are_the_admissible_observations :
  forall raw l u, set_fit_obs raw l = Ok u ->
  u_raw u = raw /\
  List.length (u_mask u) = List.length (o_x raw) /\
  (forall i x y, nth_error (o_x raw) i = Some x -> nth_error (o_y raw) i = Some y ->
     exists b, nth_error (u_mask u) i = Some b /\ (b = true <-> admissible l x y (nth_w (o_w raw) i))) /\
  o_x (u_used u) = select (u_mask u) (o_x raw) /\ o_y (u_used u) = select (u_mask u) (o_y raw) /\
  o_w (u_used u) = option_map (select (u_mask u)) (o_w raw) /\
  nobs u = List.length (o_x (u_used u)) /\ nobs u = List.length (o_y (u_used u)).
Proof.
  intros raw l u H. unfold set_fit_obs in H.
  destruct (Nat.eqb _ (List.length (o_y raw))) eqn:E1; [|discriminate]. apply Nat.eqb_eq in E1. cbn [negb] in H.
  destruct (match o_w raw with Some w => Nat.eqb (List.length w) (List.length (o_x raw)) | None => true end) eqn:E2; [|discriminate]. cbn [negb] in H.
  destruct (outside_ok (l_xout l)); [|discriminate]. destruct (outside_ok (l_yout l)); [|discriminate]. cbn [negb] in H.
  injection H as <-. cbn [u_raw u_mask u_used o_x o_y o_w].
  set (m0 := and_mask (and_mask (and_mask (map (one_mask (l_xmin l) (l_xmax l)) (o_x raw)) (map (one_mask (l_ymin l) (l_ymax l)) (o_y raw)))
               (map (outside_mask (l_xout l)) (o_x raw))) (map (outside_mask (l_yout l)) (o_y raw))).
  assert (L0 : List.length m0 = List.length (o_x raw)).
  { unfold m0. assert (LL : forall a b : list bool, List.length a = List.length (o_x raw) -> List.length b = List.length (o_x raw) -> List.length (and_mask a b) = List.length (o_x raw))
      by (intros a b Ha Hb; rewrite and_mask_length; congruence).
    repeat apply LL; rewrite map_length; congruence. }
  assert (N0 : forall i x y, nth_error (o_x raw) i = Some x -> nth_error (o_y raw) i = Some y ->
     nth_error m0 i = Some (one_mask (l_xmin l) (l_xmax l) x && one_mask (l_ymin l) (l_ymax l) y && outside_mask (l_xout l) x && outside_mask (l_yout l) y)).
  { intros i x y Hx Hy. unfold m0. repeat apply and_mask_nth; rewrite nth_error_map, ?Hx, ?Hy; reflexivity. }
  set (mask := match o_w raw with None => m0 | Some w => and_mask m0 (map (one_mask (l_wmin l) (l_wmax l))
                 (if l_logy l then map2 (fun wi yi => (wi / (yi * tln (aofZ 10)))%num) w (o_y raw) else w)) end).
  assert (LM : List.length mask = List.length (o_x raw)).
  { unfold mask. destruct (o_w raw) as [w|]; [|exact L0]. apply Nat.eqb_eq in E2.
    rewrite and_mask_length; [exact L0|]. rewrite map_length. destruct (l_logy l); [rewrite map2_length|]; lia. }
  split; [reflexivity|]. split; [exact LM|]. split; [|split; [reflexivity|split; [reflexivity|split; [reflexivity|]]]].
  2: { unfold nobs. cbn [u_mask]. fold mask. rewrite !select_length by lia. auto. }
  intros i x y Hx Hy. pose proof (N0 i x y Hx Hy) as N. unfold mask, nth_w. destruct (o_w raw) as [w|] eqn:W.
  - apply Nat.eqb_eq in E2.
    destruct (nth_error w i) as [wi|] eqn:Hw; [|exfalso; apply nth_error_None in Hw; assert (i < List.length (o_x raw))%nat by (apply nth_error_Some; congruence); lia].
    assert (NW : nth_error (map (one_mask (l_wmin l) (l_wmax l)) (if l_logy l then map2 (fun wi yi => (wi / (yi * tln (aofZ 10)))%num) w (o_y raw) else w)) i =
                 Some (one_mask (l_wmin l) (l_wmax l) (if l_logy l then (wi / (y * tln (aofZ 10)))%num else wi))).
    { rewrite nth_error_map. destruct (l_logy l); [rewrite (map2_nth _ _ _ _ _ _ Hw Hy)|rewrite Hw]; reflexivity. }
    rewrite (and_mask_nth _ _ _ _ _ N NW). eexists. split; [reflexivity|].
    rewrite andb_true_iff, andb5, !one_mask_spec. unfold admissible. split.
    + intros (((a & -> & A1 & A2) & (b & -> & B1 & B2) & O1 & O2) & (c & C1 & C2 & C3)).
      rewrite outside_mask_spec in O1, O2. exists a, b. repeat split; try assumption.
      destruct (l_logy l).
      * apply log_weight in C1. destruct C1 as (v & -> & Q1 & Q2). exists v, c. auto.
      * exists c, c. auto.
    + intros (a & b & -> & -> & A1 & A2 & O1 & B1 & B2 & O2 & (v & c & -> & C1 & C2 & C3)).
      rewrite !outside_mask_spec. split; [split; [exists a; auto|split; [exists b; auto|auto]]|].
      exists c. split; [|auto]. destruct (l_logy l); [apply log_weight; exists v; tauto|congruence].
  - rewrite N. eexists. split; [reflexivity|]. rewrite andb5, !one_mask_spec. unfold admissible. split.
    + intros ((a & -> & A1 & A2) & (b & -> & B1 & B2) & O1 & O2). rewrite outside_mask_spec in O1, O2.
      exists a, b. repeat split; assumption.
    + intros (a & b & -> & -> & A1 & A2 & O1 & B1 & B2 & O2 & _). rewrite !outside_mask_spec.
      split; [exists a; auto|split; [exists b; auto|auto]].
Qed.
Print Assumptions C47_used_are_the_admissible_observations.
(** When it is refused: arrays of different length, or an excluded range that is empty or reversed. *)
Theorem C47_rejections :
  forall raw l, (exists u, set_fit_obs raw l = Ok u) <->
    List.length (o_x raw) = List.length (o_y raw) /\
    (forall w, o_w raw = Some w -> List.length w = List.length (o_x raw)) /\
    (forall lo hi, l_xout l = Some (lo, hi) -> altb lo hi = true) /\
    (forall lo hi : XR, l_yout l = Some (lo, hi) -> altb lo hi = true).
Proof.
  intros raw l. unfold set_fit_obs. split.
  - intros [u H].
    destruct (Nat.eqb _ (List.length (o_y raw))) eqn:E1; [|discriminate]. apply Nat.eqb_eq in E1. cbn [negb] in H.
    destruct (match o_w raw with Some w => Nat.eqb (List.length w) (List.length (o_x raw)) | None => true end) eqn:E2; [|discriminate]. cbn [negb] in H.
    destruct (outside_ok (l_xout l)) eqn:O1; [|discriminate]. destruct (outside_ok (l_yout l)) eqn:O2; [|discriminate].
    split; [exact E1|]. split; [|split].
    + intros w W. rewrite W in E2. apply Nat.eqb_eq in E2. exact E2.
    + intros lo hi E. rewrite E in O1. exact O1.
    + intros lo hi E. rewrite E in O2. exact O2.
  - intros (E1 & E2 & O1 & O2). apply Nat.eqb_eq in E1. rewrite E1. cbn [negb].
    assert (W : match o_w raw with Some w => Nat.eqb (List.length w) (List.length (o_x raw)) | None => true end = true).
    { destruct (o_w raw) as [w|]; [|reflexivity]. apply Nat.eqb_eq, E2. reflexivity. }
    rewrite W. cbn [negb].
    assert (X : outside_ok (l_xout l) = true) by (destruct (l_xout l) as [[? ?]|]; [apply O1|]; reflexivity).
    assert (Y : outside_ok (l_yout l) = true) by (destruct (l_yout l) as [[? ?]|]; [apply O2|]; reflexivity).
    rewrite X, Y. eexists. reflexivity.
Qed.
Print Assumptions C47_rejections.
Definition no_limits : limits (T := XR) := mkLimits None None None None None None None None false.
Example C47_ex : exists u, set_fit_obs (mkObs [Fin 1; NaN; Fin 3] [Fin 2; Fin 2; PInf] None) no_limits = Ok u /\ u_mask u = [true; false; false].
Proof. eexists. split; reflexivity. Qed.

(* ================================================================ C48 *)
(** A method that does not drop what the base class returns. *)
Definition enough (o : ffobj (T := XR)) : Prop := (List.length (c_args (ff_class o)) <= nobs (ff_obs o))%nat.
Theorem C48_insufficient_data_iff_partial :
  forall lsq (o : ffobj (T := XR)) re k o' r, make_fit lsq o re k = (r, o') ->
  (* the optimiser and the initial guess themselves do not use this exception *)
  (forall f u p b, lsq f u p b <> LsqRaises InsufficientDataError) -> c_p0 (ff_class o) (u_used (ff_obs o)) <> Err InsufficientDataError ->
  (re = false -> (r = Raised InsufficientDataError <-> ~ enough o)) /\
  (re = true -> c_discards (ff_class o) = false -> (r = Returned (Some InsufficientDataError) <-> ~ enough o)) /\
  (~ enough o -> o' = o).
Proof.
  intros lsq o re k o' r H NL NP. unfold make_fit, base_make_fit in H. unfold enough.
  destruct (Nat.leb (List.length (c_args (ff_class o))) (nobs (ff_obs o))) eqn:E.
  - apply Nat.leb_le in E. cbn [negb] in H.
    assert (RL : run_least_squares lsq o k <> Err InsufficientDataError).
    { unfold run_least_squares. destruct (c_p0 _ _) as [d|e] eqn:P; [|congruence].
      destruct (resolve_bounds _ _) as [bd|e] eqn:B.
      - destruct (lsq _ _ _ _) eqn:L; [|discriminate|discriminate]. intros Q. injection Q as ->. exact (NL _ _ _ _ L).
      - unfold resolve_bounds in B. destruct (k_bounds k) as [|d0]; [discriminate|]. intros Q. injection Q as ->.
        destruct (mapM _ _) eqn:M; [discriminate|]. cbn in B. injection B as ->.
        revert M. generalize (c_args (ff_class o)). intros args. induction args as [|a args IH]; [discriminate|]. cbn [mapM bind].
        destruct (dict_get a d0) as [v|e] eqn:G; cbn [bind].
        + destruct (mapM _ args) eqn:M2; cbn; [discriminate|]. intros Q. injection Q as ->. apply IH. reflexivity.
        + intros Q. injection Q as ->. revert G. clear. induction d0 as [|[k' v] d0 IH]; cbn; [discriminate|].
          destruct (String.eqb k' a); [discriminate|exact IH]. }
    assert (NE : r <> Raised InsufficientDataError /\ (r <> Returned (Some InsufficientDataError))).
    { destruct (k_absolute_sigma k).
      - destruct (c_discards _); injection H as <- <-; split; discriminate.
      - destruct (run_least_squares lsq o k) as [[p s]|e] eqn:R.
        + destruct (c_discards _); injection H as <- <-; split; discriminate.
        + assert (e <> InsufficientDataError) by congruence.
          destruct (caught e && re); destruct (c_discards _); injection H as <- <-; split; congruence. }
    destruct NE as [NE1 NE2].
    split; [intros _|split; [intros _ _|intros Q; lia]]; (split; [intros Q; contradiction|intros Q; lia]).
  - apply Nat.leb_gt in E. cbn [negb] in H.
    destruct re, (c_discards (ff_class o)) eqn:D; injection H as <- <-;
      (split; [intros Q; try discriminate Q|split; [intros Q D'; try discriminate|intros _; reflexivity]]);
      (split; [intros _; lia|intros _; reflexivity]).
Qed.
Print Assumptions C48_insufficient_data_iff_partial.
(** Gaussian and GaussianNormalized drop the exception: with too few observations (indeed after any failure) and
    return_exception=True the call returns None, as after a successful fit. *)
Theorem C48_gaussian_failures_look_like_success_refuted :
  forall lsq (o : ffobj (T := XR)) k r o', c_discards (ff_class o) = true -> make_fit lsq o true k = (r, o') ->
  (~ enough o -> r = Returned None) /\ (forall e, r <> Returned (Some e)).
Proof.
  intros lsq o k r o' D H. unfold make_fit in H. destruct (base_make_fit lsq o true k) as [r0 o0] eqn:B. rewrite D in H. injection H as <- <-.
  split; [|destruct r0; discriminate]. intros NE. unfold base_make_fit, enough in *.
  destruct (Nat.leb _ _) eqn:E; [apply Nat.leb_le in E; contradiction|]. cbn [negb] in B. injection B as <- <-. reflexivity.
Qed.
Print Assumptions C48_gaussian_failures_look_like_success_refuted.
(** A concrete class with two parameters for the examples. *)
Definition ex_class (d : bool) : ffclass (T := XR) :=
  mkClass ["m"; "b"] (fun p x => match p with [m; b] => aadd (amul m x) b | _ => NaN end) (fun _ => Ok None) d.
Definition ex_ff d (n : nat) : ffobj (T := XR) :=
  {| ff_class := ex_class d; ff_popt := None; ff_psigma := None;
     ff_obs := {| u_used := mkObs (repeat (Fin 1) n) (repeat (Fin 1) n) None; u_raw := mkObs (repeat (Fin 1) n) (repeat (Fin 1) n) None; u_mask := repeat true n |} |}.
Example C48_ex : ~ enough (ex_ff true 1) /\ enough (ex_ff false 2).
Proof. unfold enough. cbn. split; lia. Qed.

(* ================================================================ C49 *)
Definition real_obs (pts : list (R * R)) : obs (T := XR) := mkObs (map (fun p => Fin (fst p)) pts) (map (fun p => Fin (snd p)) pts) None.
Definition finite_on (f : XR -> XR) (g : R -> R) : Prop := forall a, f (Fin a) = Fin (g a).
Theorem C49_residuals :
  forall f g pts, finite_on f g ->
  residuals false f (real_obs pts) = map (fun p => Fin (snd p - g (fst p))) pts /\
  residuals true f (real_obs pts) =
    map (fun p => if Req_EM_T (g (fst p)) 0 then NaN else Fin (100 * (snd p - g (fst p)) / g (fst p))) pts.
Proof.
  intros f g pts HF. unfold residuals, real_obs. cbn [o_x o_y]. split; induction pts as [|[x y] pts IH]; cbn [map map2 fst snd]; try reflexivity.
  - rewrite IH. unfold residual. rewrite HF, fin_sub. reflexivity.
  - rewrite IH. f_equal. unfold residual. rewrite !HF.
    rewrite fin_sub, fin_ofZ, fin_eqb.
    destruct (Req_EM_T (g x) 0) as [E|E].
    + rewrite (proj2 (Reqb_true _ _) E). reflexivity.
    + rewrite (proj2 (Reqb_false _ _) E), fin_div, fin_ofZ, fin_mul by exact E. f_equal. field. exact E.
Qed.
Print Assumptions C49_residuals.
Definition rmean (l : list R) : R := Rsum l / INR (List.length l).
Definition sst (pts : list (R * R)) : R := Rsum (map (fun p => (snd p - rmean (map snd pts)) ^ 2) pts).
Definition ssr (g : R -> R) (pts : list (R * R)) : R := Rsum (map (fun p => (snd p - g (fst p)) ^ 2) pts).
Lemma Rsum_sq_zero (l : list R) : Rsum (map (fun x => x ^ 2) l) = 0 <-> forall x, In x l -> x = 0.
Proof.
  induction l as [|x l IH]; cbn [map Rsum]; [split; [intros _ y []|reflexivity]|].
  assert (P : 0 <= Rsum (map (fun x => x ^ 2) l)).
  { apply Rsum_nonneg. intros y Hy. apply in_map_iff in Hy. destruct Hy as (z & <- & _). apply pow2_ge_0. }
  pose proof (pow2_ge_0 x) as Q. split.
  - intros H y [<-|Hy].
    + assert (E : x ^ 2 = 0) by lra. apply Rsqr_0_uniq. rewrite Rsqr_pow2. exact E.
    + apply IH; [lra|exact Hy].
  - intros H. rewrite (H x) by (left; reflexivity). rewrite (proj2 IH) by (intros y Hy; apply H; right; exact Hy). ring.
Qed.
Lemma rsq_value f g pts : finite_on f g -> pts <> [] -> sst pts <> 0 -> rsq f (real_obs pts) = Fin (1 - ssr g pts / sst pts).
Proof.
  intros HF NE NZ. unfold rsq, real_obs. cbn [o_x o_y].
  assert (M : arr_mean (map (fun p : R * R => Fin (snd p)) pts) = Fin (rmean (map snd pts))).
  { unfold arr_mean. replace (map (fun p : R * R => Fin (snd p)) pts) with (map Fin (map snd pts)) by (rewrite map_map; reflexivity).
    rewrite sum_strict_fin, fin_ofZ, fin_div; rewrite <- INR_IZR_INZ, !map_length; [unfold rmean; rewrite map_length; reflexivity|].
    apply not_0_INR. destruct pts; [contradiction|discriminate]. }
  rewrite M.
  assert (S1 : map (fun y => asq (y - Fin (rmean (map snd pts)))%num) (map (fun p : R * R => Fin (snd p)) pts) =
               map Fin (map (fun p => (snd p - rmean (map snd pts)) ^ 2) pts)).
  { rewrite !map_map. apply map_ext. intros p. rewrite fin_sub, fin_sq. f_equal. ring. }
  assert (S2 : forall l, map2 (fun x y => asq (y - f x)%num) (map (fun p : R * R => Fin (fst p)) l) (map (fun p : R * R => Fin (snd p)) l) =
               map Fin (map (fun p => (snd p - g (fst p)) ^ 2) l)).
  { induction l as [|p l IH]; cbn [map map2]; [reflexivity|]. rewrite IH, HF, fin_sub, fin_sq. f_equal. f_equal. ring. }
  rewrite S1, S2, !sum_strict_fin. fold (sst pts). fold (ssr g pts). rewrite fin_ofZ, fin_div, fin_sub by exact NZ. reflexivity.
Qed.
(** r^2 is at most 1, and 1 exactly for a perfect fit. *)
Theorem C49_rsq_at_most_one :
  forall f g pts, finite_on f g -> (exists p q, In p pts /\ In q pts /\ snd p <> snd q) ->
  exists r, rsq f (real_obs pts) = Fin r /\ r <= 1 /\ (r = 1 <-> forall p, In p pts -> g (fst p) = snd p).
Proof.
  intros f g pts HF (p & q & Hp & Hq & D).
  assert (NE : pts <> []) by (intros ->; contradiction).
  assert (SS : forall h : R * R -> R, 0 <= Rsum (map (fun p => (h p) ^ 2) pts)).
  { intros h. apply Rsum_nonneg. intros y Hy. apply in_map_iff in Hy. destruct Hy as (z & <- & _). apply pow2_ge_0. }
  assert (ZZ : forall h : R * R -> R, Rsum (map (fun p => (h p) ^ 2) pts) = 0 <-> forall p, In p pts -> h p = 0).
  { intros h. replace (map (fun p => (h p) ^ 2) pts) with (map (fun x => x ^ 2) (map h pts)) by (rewrite map_map; reflexivity).
    rewrite Rsum_sq_zero. split; intros H z Hz; [apply H, in_map, Hz|]. apply in_map_iff in Hz. destruct Hz as (w & <- & Hw). apply H, Hw. }
  assert (NZ : sst pts <> 0).
  { intros Z. pose proof (proj1 (ZZ (fun p => snd p - rmean (map snd pts))) Z) as Z'. pose proof (Z' p Hp). pose proof (Z' q Hq). cbn in *. lra. }
  assert (P : 0 < sst pts) by (pose proof (SS (fun p => snd p - rmean (map snd pts))); unfold sst in *; lra).
  pose proof (SS (fun p => snd p - g (fst p))) as Q. fold (ssr g pts) in Q.
  exists (1 - ssr g pts / sst pts). split; [apply rsq_value; assumption|].
  assert (I : 0 <= ssr g pts / sst pts) by (apply Rmult_le_pos; [exact Q|left; apply Rinv_0_lt_compat, P]).
  split; [lra|]. split.
  - intros E. assert (Z : ssr g pts = 0).
    { assert (ssr g pts / sst pts = 0) by lra. replace (ssr g pts) with (ssr g pts / sst pts * sst pts) by (field; lra). rewrite H. ring. }
    unfold ssr in Z. rewrite (ZZ (fun p => snd p - g (fst p))) in Z. intros w Hw. specialize (Z w Hw). cbn in Z. lra.
  - intros E. assert (Z : ssr g pts = 0).
    { unfold ssr. apply (ZZ (fun p => snd p - g (fst p))). intros w Hw. rewrite (E w Hw). ring. }
    rewrite Z. unfold Rdiv. ring.
Qed.
Print Assumptions C49_rsq_at_most_one.
Example C49_ex : finite_on (fun x => amul (Fin 2) x) (fun a => 2 * a) /\ exists p q, In p [(1, 2); (2, 4)] /\ In q [(1, 2); (2, 4)] /\ snd p <> snd q.
Proof. split; [intros a; apply fin_mul|]. exists (1, 2), (2, 4). cbn. repeat split; auto; lra. Qed.

(* ================================================================ C50 *)
(** Named bounds reach their own parameter, in the order of the parameters, whatever the order of the dictionary;
    a parameter that is not named is an error. *)
Lemma mapM_get (args : list string) (d : list (string * (XR * XR))) l :
  mapM (fun k => dict_get k d) args = Ok l <-> Forall2 (fun k v => dict_get k d = Ok v) args l.
Proof.
  revert l. induction args as [|a args IH]; intros l; cbn [mapM].
  - split; [intros H; injection H as <-; constructor|intros H; inversion H; reflexivity].
  - destruct (dict_get a d) as [v|e] eqn:G; cbn [bind].
    + destruct (mapM _ args) as [vs|e] eqn:M; cbn [bind].
      * split; [intros H; injection H as <-; constructor; [exact G|apply IH; reflexivity]|].
        intros H. inversion H; subst. apply IH in H4. congruence.
      * split; [discriminate|]. intros H. inversion H; subst. apply IH in H4. discriminate.
    + split; [discriminate|]. intros H. inversion H; subst. congruence.
Qed.
Lemma dict_get_In (d : list (string * (XR * XR))) k v : NoDup (map fst d) -> In (k, v) d -> dict_get k d = Ok v.
Proof.
  induction d as [|[k' v'] d IH]; cbn; intros N H; [contradiction|]. inversion N; subst.
  destruct H as [H|H]; [injection H as -> ->; rewrite String.eqb_refl; reflexivity|].
  destruct (String.eqb k' k) eqn:E; [|apply IH; assumption]. apply String.eqb_eq in E. subst k'. exfalso. apply H2.
  change k with (fst (k, v)). apply in_map, H.
Qed.
Theorem C50_named_bounds :
  forall (args : list string) (d : list (string * (XR * XR))), NoDup (map fst d) ->
  (forall lb ub, resolve_bounds args (BDict d) = Ok (lb, ub) ->
     Forall2 (fun k lu => In (k, lu) d) args (combine lb ub) /\ List.length lb = List.length args /\ List.length ub = List.length args) /\
  ((forall k, In k args -> In k (map fst d)) <-> exists b, resolve_bounds args (BDict d) = Ok b) /\
  (forall d', NoDup (map fst d') -> (forall kv, In kv d <-> In kv d') -> resolve_bounds args (BDict d') = resolve_bounds args (BDict d)).
Proof.
  intros args d ND.
  assert (GI : forall k v, dict_get k d = Ok v -> In (k, v) d).
  { clear. intros k v. induction d as [|[k' v'] d IH]; cbn; [discriminate|]. destruct (String.eqb k' k) eqn:E.
    - apply String.eqb_eq in E. subst. intros H. injection H as ->. left. reflexivity.
    - intros H. right. apply IH, H. }
  split; [|split].
  - intros lb ub H. unfold resolve_bounds in H. apply rmap_ok in H. destruct H as (l & M & E). injection E as -> ->.
    apply mapM_get in M. assert (LL : List.length args = List.length l) by (clear - M; induction M; cbn; lia).
    rewrite !map_length. split; [|auto].
    assert (C : combine (map fst l) (map snd l) = l) by (clear; induction l as [|[? ?] l IH]; cbn; [|rewrite IH]; reflexivity).
    rewrite C. clear - M GI. induction M; constructor; auto.
  - split.
    + intros H. assert (E : exists l, mapM (fun k => dict_get k d) args = Ok l).
      { induction args as [|a args IH]; [eexists; reflexivity|]. cbn [mapM].
        destruct (dict_get a d) as [v|e] eqn:G.
        - destruct IH as [l Hl]; [intros k Hk; apply H; right; exact Hk|]. cbn [bind]. rewrite Hl. eexists. reflexivity.
        - exfalso. assert (In a (map fst d)) by (apply H; left; reflexivity). apply in_map_iff in H0. destruct H0 as ([k v] & E & I). cbn in E. subst k.
          rewrite (dict_get_In _ _ _ ND I) in G. discriminate. }
      destruct E as [l E]. unfold resolve_bounds. rewrite E. eexists. reflexivity.
    + intros [b H] k Hk. unfold resolve_bounds in H. apply rmap_ok in H. destruct H as (l & M & _). apply mapM_get in M.
      clear - M Hk GI. induction M; [contradiction|]. destruct Hk as [<-|Hk]; [|apply IHM, Hk].
      apply GI in H. change x with (fst (x, y)). apply in_map, H.
  - intros d' ND' EQ. unfold resolve_bounds. f_equal.
    assert (G : forall k, dict_get k d' = dict_get k d).
    { intros k. destruct (dict_get k d) as [v|e] eqn:G.
      - apply GI in G. apply EQ in G. apply (dict_get_In _ _ _ ND' G).
      - destruct (dict_get k d') as [v|e'] eqn:G'.
        + exfalso. assert (I : In (k, v) d').
          { clear - G'. induction d' as [|[k' v'] d' IH]; cbn in *; [discriminate|]. destruct (String.eqb k' k) eqn:E.
            - apply String.eqb_eq in E. subst. injection G' as ->. left. reflexivity.
            - right. apply IH, G'. }
          apply EQ in I. rewrite (dict_get_In _ _ _ ND I) in G. discriminate.
        + assert (K : forall (dd : list (string * (XR * XR))) ee, dict_get k dd = Err ee -> ee = KeyError).
          { clear. induction dd as [|[k' v'] dd IH]; cbn; intros ee H; [congruence|]. destruct (String.eqb k' k); [discriminate|apply IH, H]. }
          rewrite (K _ _ G), (K _ _ G'). reflexivity. }
    clear - G. induction args as [|a args IH]; [reflexivity|]. cbn [mapM]. rewrite G, IH. reflexivity.
Qed.
Print Assumptions C50_named_bounds.
(** But a misspelt extra name is ignored without complaint. *)
Theorem C50_unknown_names_accepted_refuted :
  exists (args : list string) (d : list (string * (XR * XR))) k, In k (map fst d) /\ ~ In k args /\ exists b, resolve_bounds args (BDict d) = Ok b.
Proof.
  exists ["m"], [("m", (Fin 0, Fin 1)); ("sigmma", (Fin 0, Fin 1))], "sigmma". cbn. split; [auto|]. split; [intros [Q|[]]; discriminate|].
  eexists. reflexivity.
Qed.
Print Assumptions C50_unknown_names_accepted_refuted.
Example C50_ex : NoDup (map fst [("b", (Fin 0, Fin 1)); ("m", (Fin 2, Fin 3))]) /\
  resolve_bounds ["m"; "b"] (BDict [("b", (Fin 0, Fin 1)); ("m", (Fin 2, Fin 3))]) = Ok ([Fin 2; Fin 0], [Fin 3; Fin 1]).
Proof. split; [repeat constructor; cbn; intuition discriminate|reflexivity]. Qed.

(* ================================================================ C96 *)
(** Operations on a fit function object after its construction. *)
Inductive fop := OFit (lsq : optimiser (T := XR)) (re : bool) (k : kwargs (T := XR)) | OSetObs (raw : obs (T := XR)) (l : limits (T := XR)).
Definition fstep (o : ffobj (T := XR)) (op : fop) : ffobj (T := XR) :=
  match op with
  | OFit lsq re k => snd (make_fit lsq o re k)
  | OSetObs raw l => match reset_obs o raw l with Ok o' => o' | Err _ => o end
  end.
(** The parameters are those the optimiser returned for some observations the object had, named in order. *)
Definition from_fit (o : ffobj (T := XR)) (u : obs (T := XR)) : Prop :=
  exists (lsq : optimiser) p0 bd popt psigma, lsq (c_fun (ff_class o)) u p0 bd = LsqSuccess popt psigma /\
    ff_popt o = Some (combine (c_args (ff_class o)) popt) /\ ff_psigma o = Some (combine (c_args (ff_class o)) psigma).
Theorem C96_parameters_come_from_a_successful_fit :
  forall c raw l o ops, new_ff c raw l = Ok o ->
  let o' := fold_left fstep ops o in
  ff_class o' = c /\
  (ff_popt o' = None \/ exists ops1 ops2, ops = ops1 ++ ops2 /\ from_fit o' (u_used (ff_obs (fold_left fstep ops1 o)))).
Proof.
  intros c raw l o ops H. cbv zeta.
  assert (C0 : ff_class o = c /\ ff_popt o = None).
  { unfold new_ff in H. apply rmap_ok in H. destruct H as (u & _ & ->). split; reflexivity. }
  destruct C0 as [C0 P0]. clear H.
  induction ops as [|op ops IH] using rev_ind; [split; [exact C0|left; exact P0]|].
  rewrite fold_left_app. cbn [fold_left]. destruct IH as [IC IP]. set (o1 := fold_left fstep ops o) in *.
  destruct op as [lsq re k|raw' l']; cbn [fstep].
  - unfold make_fit. destruct (base_make_fit lsq o1 re k) as [r o2] eqn:B.
    assert (S2 : snd (if c_discards (ff_class o1) then (match r with Raised e => Raised e | Returned _ => Returned None end, o2) else (r, o2)) = o2)
      by (destruct (c_discards _); reflexivity).
    rewrite S2. clear S2. unfold base_make_fit in B.
    assert (SAME : o2 = o1 -> ff_class o2 = c /\ (ff_popt o2 = None \/ exists ops1 ops2, ops ++ [OFit lsq re k] = ops1 ++ ops2 /\ from_fit o2 (u_used (ff_obs (fold_left fstep ops1 o))))).
    { intros ->. split; [exact IC|]. destruct IP as [IP|(a & b & E & F)]; [left; exact IP|right].
      exists a, (b ++ [OFit lsq re k]). split; [rewrite E, app_assoc; reflexivity|exact F]. }
    destruct (negb _); [injection B as _ <-; apply SAME; reflexivity|].
    destruct (k_absolute_sigma k); [injection B as _ <-; apply SAME; reflexivity|].
    destruct (run_least_squares lsq o1 k) as [[popt ps]|e] eqn:R; [|injection B as _ <-; apply SAME; reflexivity].
    injection B as _ <-. cbn [ff_class ff_popt]. split; [exact IC|right]. exists ops, [OFit lsq re k]. split; [reflexivity|].
    unfold run_least_squares in R. destruct (c_p0 _ _) as [d|e]; [|discriminate]. destruct (resolve_bounds _ _) as [bd|e]; [|discriminate].
    destruct (lsq _ _ _ _) eqn:L; try discriminate. injection R as <- <-.
    exists lsq. eexists. eexists. eexists. eexists. split; [exact L|]. split; reflexivity.
  - destruct (reset_obs o1 raw' l') as [o2|e] eqn:R.
    + unfold reset_obs in R. apply rmap_ok in R. destruct R as (u & _ & ->). cbn [ff_class ff_popt]. split; [exact IC|].
      destruct IP as [IP|(a & b & E & F)]; [left; exact IP|right]. exists a, (b ++ [OSetObs raw' l']).
      split; [rewrite E, app_assoc; reflexivity|exact F].
    + split; [exact IC|]. destruct IP as [IP|(a & b & E & F)]; [left; exact IP|right].
      exists a, (b ++ [OSetObs raw' l']). split; [rewrite E, app_assoc; reflexivity|exact F].
Qed.
Print Assumptions C96_parameters_come_from_a_successful_fit.
(** The observations need not be the current ones: after a failed refit the object still reports the old parameters. *)
Theorem C96_stale_parameters_after_failed_refit_refuted :
  exists c raw l o ops p, new_ff c raw l = Ok o /\ ff_popt (fold_left fstep ops o) = Some p /\
    u_used (ff_obs (fold_left fstep ops o)) = mkObs [] [] None /\
    (exists lsq k ops1, ops = ops1 ++ [OFit lsq true k] /\
       fst (make_fit lsq (fold_left fstep ops1 o) true k) = Returned (Some InsufficientDataError)).
Proof.
  set (lsq := (fun _ _ _ _ => LsqSuccess [Fin 1; Fin 2] [Fin 0; Fin 0]) : optimiser (T := XR)).
  set (k := {| k_p0 := None; k_bounds := BPair [] []; k_absolute_sigma := false |} : kwargs (T := XR)).
  exists (ex_class false), (mkObs [Fin 1; Fin 2] [Fin 3; Fin 4] None), no_limits.
  eexists. exists [OFit lsq true k; OSetObs (mkObs [] [] None) no_limits; OFit lsq true k].
  eexists. split; [reflexivity|]. split; [reflexivity|]. split; [reflexivity|].
  exists lsq, k, [OFit lsq true k; OSetObs (mkObs [] [] None) no_limits]. split; reflexivity.
Qed.
Print Assumptions C96_stale_parameters_after_failed_refit_refuted.

(* ================================================================ C97 *)
Theorem C97_chisq_dof :
  forall f g pts n, finite_on f g -> (n <= List.length pts)%nat ->
  (chisq_dof f n (real_obs pts) = None <-> n = List.length pts) /\
  (n <> List.length pts -> exists c, chisq_dof f n (real_obs pts) = Some (Fin c) /\
     c = ssr g pts / INR (List.length pts - n) /\ 0 <= c).
Proof.
  intros f g pts n HF HN. unfold chisq_dof, real_obs. cbn [o_x o_y o_w]. rewrite map_length.
  destruct (Z.eqb _ 0) eqn:E.
  - apply Z.eqb_eq in E. split; [split; [intros _; lia|reflexivity]|intros Q; lia].
  - apply Z.eqb_neq in E. split; [split; [discriminate|intros Q; lia]|]. intros NQ.
    assert (S2 : forall l, map asq (map2 (fun x y => (f x - y)%num) (map (fun p : R * R => Fin (fst p)) l) (map (fun p : R * R => Fin (snd p)) l)) =
               map Fin (map (fun p => (snd p - g (fst p)) ^ 2) l)).
    { induction l as [|p l IH]; cbn [map map2]; [reflexivity|]. rewrite IH, HF, fin_sub, fin_sq. f_equal. f_equal. ring. }
    rewrite S2, sum_strict_fin, fin_ofZ. fold (ssr g pts).
    assert (DZ : (Z.of_nat (List.length pts) - Z.of_nat n)%Z = Z.of_nat (List.length pts - n)) by lia.
    rewrite DZ, <- INR_IZR_INZ. assert (P : 0 < INR (List.length pts - n)) by (apply lt_0_INR; lia).
    rewrite fin_div by lra. eexists. split; [reflexivity|]. split; [reflexivity|].
    apply Rmult_le_pos; [|left; apply Rinv_0_lt_compat, P].
    apply Rsum_nonneg. intros y Hy. apply in_map_iff in Hy. destruct Hy as (z & <- & _). apply pow2_ge_0.
Qed.
Print Assumptions C97_chisq_dof.
