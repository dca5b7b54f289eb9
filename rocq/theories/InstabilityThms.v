(** C43 (stability bins), C44 (threshold curves), C94 (legend of the threshold plot). *)
From Coq Require Import List String Bool Arith ZArith Reals Lra Lia FunctionalExtensionality.
From Verif Require Import Py PyStr Num Instability.
Import ListNotations.
Open Scope R_scope.

(* ---------------------------------------------------------------- specification *)
Definition growth_rates : list Z := [-4; -3; -2]%Z.
Definition Zq (z : Z) : R := IZR z / 1000.
(** 1 + a / (beta - c)^b for beta above the pole c *)
Definition threshold (p : Z * Z * Z) (beta : R) : R :=
  let '(a, b, c) := p in 1 + Zq a / Rpower (beta - Zq c) (Zq b).
Definition pole (p : Z * Z * Z) : R := let '(a, b, c) := p in Zq c.
Definition above (i : inst) : Prop := i = AIC \/ i = MM.
Definition params_of (g : Z) (i : inst) : Z * Z * Z := match insta_params g i with Some p => p | None => (0, 0, 0)%Z end.
(** The instability is active: its threshold exists and is crossed. *)
Definition active (g : Z) (beta r : R) (i : inst) : Prop :=
  pole (params_of g i) < beta /\
  match i with AIC | MM => threshold (params_of g i) beta < r | FMW | OFI => r < threshold (params_of g i) beta end.

(* ---------------------------------------------------------------- lemmas *)
Lemma params_shape g i : In g growth_rates -> exists a b c, insta_params g i = Some (a, b, c) /\ (0 < b)%Z /\
  (above i -> (0 < a)%Z) /\ (~ above i -> (a < 0)%Z).
Proof.
  intros [<-|[<-|[<-|[]]]]; destruct i; cbn [insta_params]; eexists; eexists; eexists; (split; [reflexivity|]);
    (split; [lia|]); split; intros H; try lia; exfalso; try (apply H; left; reflexivity); try (apply H; right; reflexivity);
    destruct H; discriminate.
Qed.
Lemma threshold_value p beta : pole p < beta -> beta_ani_inst p (Fin beta) = Fin (threshold p beta).
Proof.
  destruct p as [[a b] c]. unfold beta_ani_inst, threshold, pole, Zq. intros H. rewrite !fin_ofQ, fin_ofZ, fin_sub.
  change (tpow (Fin (beta - IZR c / 1000)) (Fin (IZR b / 1000))) with (xpow (Fin (beta - IZR c / 1000)) (Fin (IZR b / 1000))).
  unfold xpow. assert (E : Rltb 0 (beta - IZR c / 1000) = true) by (apply Rltb_true; lra). rewrite E.
  rewrite fin_div, fin_add; [reflexivity|]. unfold Rpower. pose proof (exp_pos (IZR b / 1000 * ln (beta - IZR c / 1000))). lra.
Qed.
Lemma threshold_below p beta : beta < pole p -> beta_ani_inst p (Fin beta) = NaN.
Proof.
  destruct p as [[a b] c]. unfold beta_ani_inst, pole, Zq. intros H. rewrite !fin_ofQ, fin_ofZ, fin_sub.
  change (tpow (Fin (beta - IZR c / 1000)) (Fin (IZR b / 1000))) with (xpow (Fin (beta - IZR c / 1000)) (Fin (IZR b / 1000))).
  unfold xpow. assert (E : Rltb 0 (beta - IZR c / 1000) = false) by (apply Rltb_false; lra). rewrite E.
  assert (E2 : Rltb (beta - IZR c / 1000) 0 = true) by (apply Rltb_true; lra). rewrite E2. reflexivity.
Qed.
Lemma threshold_at_pole p beta : (0 < snd (fst p))%Z -> beta = pole p ->
  beta_ani_inst p (Fin beta) = (if Rltb 0 (Zq (fst (fst p))) then PInf else if Rltb (Zq (fst (fst p))) 0 then MInf else NaN).
Proof.
  destruct p as [[a b] c]. cbn [fst snd]. unfold beta_ani_inst, pole, Zq. intros Hb ->. rewrite !fin_ofQ, fin_ofZ, fin_sub.
  replace (IZR c / 1000 - IZR c / 1000) with 0 by ring.
  change (tpow (Fin 0) (Fin (IZR b / 1000))) with (xpow (Fin 0) (Fin (IZR b / 1000))). unfold xpow.
  assert (E : Rltb 0 0 = false) by (apply Rltb_false; lra). rewrite E.
  assert (E2 : Rltb 0 (IZR b / 1000) = true).
  { apply Rltb_true. apply (IZR_lt 0) in Hb. lra. }
  rewrite E2. change ((Fin (IZR a / 1000) / Fin 0)%num) with (xdiv (Fin (IZR a / 1000)) (Fin 0)). unfold xdiv.
  assert (E3 : Reqb 0 0 = true) by (apply Reqb_true; reflexivity). rewrite E3. unfold inf_sign.
  destruct (Rltb 0 (IZR a / 1000)); [reflexivity|]. destruct (Rltb (IZR a / 1000) 0); reflexivity.
Qed.
Lemma Rpower_pos x y : 0 < Rpower x y. Proof. apply exp_pos. Qed.
Lemma Rpower_lt_base x y b : 0 < b -> 0 < x -> x < y -> Rpower x b < Rpower y b.
Proof.
  intros Hb Hx Hxy. unfold Rpower. apply exp_increasing. apply Rmult_lt_compat_l; [exact Hb|]. apply ln_increasing; assumption.
Qed.

(* ================================================================ C44 *)
Theorem C44_upper_thresholds_decrease_above_one :
  forall g i, In g growth_rates -> above i ->
  (forall beta, pole (params_of g i) < beta ->
     beta_ani_inst (params_of g i) (Fin beta) = Fin (threshold (params_of g i) beta) /\ 1 < threshold (params_of g i) beta) /\
  (forall beta beta', pole (params_of g i) < beta -> beta < beta' ->
     threshold (params_of g i) beta' < threshold (params_of g i) beta).
Proof.
  intros g i Hg Hi. destruct (params_shape g i Hg) as (a & b & c & E & Hb & Ha & _). specialize (Ha Hi).
  unfold params_of. rewrite E. apply (IZR_lt 0) in Ha, Hb.
  split; [intros beta H; split; [apply threshold_value, H|]|intros beta beta' H H'].
  - unfold threshold. pose proof (Rpower_pos (beta - Zq c) (Zq b)). unfold Zq in *.
    assert (0 < IZR a / 1000 / Rpower (beta - IZR c / 1000) (IZR b / 1000)); [|lra]. apply Rdiv_lt_0_compat; lra.
  - unfold threshold, pole in *. pose proof (Rpower_pos (beta - Zq c) (Zq b)).
    assert (P : Rpower (beta - Zq c) (Zq b) < Rpower (beta' - Zq c) (Zq b)) by (apply Rpower_lt_base; unfold Zq in *; lra).
    apply Rplus_lt_compat_l. unfold Rdiv. apply Rmult_lt_compat_l; [unfold Zq; lra|]. apply Rinv_lt_contravar; [|exact P].
    apply Rmult_lt_0_compat; lra.
Qed.
Print Assumptions C44_upper_thresholds_decrease_above_one.
Theorem C44_lower_thresholds_increase_below_one :
  forall g i, In g growth_rates -> ~ above i ->
  (forall beta, pole (params_of g i) < beta ->
     beta_ani_inst (params_of g i) (Fin beta) = Fin (threshold (params_of g i) beta) /\ threshold (params_of g i) beta < 1) /\
  (forall beta beta', pole (params_of g i) < beta -> beta < beta' ->
     threshold (params_of g i) beta < threshold (params_of g i) beta').
Proof.
  intros g i Hg Hi. destruct (params_shape g i Hg) as (a & b & c & E & Hb & _ & Ha). specialize (Ha Hi).
  unfold params_of. rewrite E. apply IZR_lt in Ha, Hb.
  assert (N : Zq a = - Zq (- a)) by (unfold Zq; rewrite opp_IZR; field).
  assert (M : 0 < Zq (- a)) by (unfold Zq; rewrite opp_IZR; lra).
  split; [intros beta H; split; [apply threshold_value, H|]|intros beta beta' H H'].
  - unfold threshold. rewrite N. pose proof (Rpower_pos (beta - Zq c) (Zq b)).
    assert (0 < Zq (- a) / Rpower (beta - Zq c) (Zq b)) by (apply Rdiv_lt_0_compat; lra).
    unfold Rdiv in *. rewrite Ropp_mult_distr_l_reverse. lra.
  - unfold threshold, pole in *. rewrite N. pose proof (Rpower_pos (beta - Zq c) (Zq b)).
    assert (P : Rpower (beta - Zq c) (Zq b) < Rpower (beta' - Zq c) (Zq b)) by (apply Rpower_lt_base; unfold Zq in *; lra).
    apply Rplus_lt_compat_l. unfold Rdiv. rewrite !Ropp_mult_distr_l_reverse. apply Ropp_lt_contravar.
    apply Rmult_lt_compat_l; [lra|]. apply Rinv_lt_contravar; [|exact P]. apply Rmult_lt_0_compat; lra.
Qed.
Print Assumptions C44_lower_thresholds_increase_below_one.
(** They tend to isotropy: closer to 1 than any eps for large beta. *)
Theorem C44_thresholds_tend_to_isotropy :
  forall g i eps, In g growth_rates -> 0 < eps ->
  exists B, pole (params_of g i) < B /\ forall beta, B < beta -> Rabs (threshold (params_of g i) beta - 1) < eps.
Proof.
  intros g i eps Hg He. destruct (params_shape g i Hg) as (a & b & c & E & Hb & _). unfold params_of. rewrite E.
  apply (IZR_lt 0) in Hb. unfold threshold, pole.
  assert (Pb : 0 < Zq b) by (unfold Zq; lra).
  set (M := (Rabs (Zq a) + 1) / eps). assert (PM : 0 < M).
  { unfold M. apply Rdiv_lt_0_compat; [pose proof (Rabs_pos (Zq a)); lra|exact He]. }
  exists (Zq c + Rpower M (/ Zq b)). pose proof (Rpower_pos M (/ Zq b)). split; [lra|]. intros beta Hbeta.
  assert (L : M < Rpower (beta - Zq c) (Zq b)).
  { assert (Q : Rpower (Rpower M (/ Zq b)) (Zq b) = M).
    { rewrite Rpower_mult, Rinv_l by lra. apply Rpower_1. exact PM. }
    rewrite <- Q. apply Rpower_lt_base; lra. }
  replace (1 + Zq a / Rpower (beta - Zq c) (Zq b) - 1) with (Zq a / Rpower (beta - Zq c) (Zq b)) by ring.
  assert (PP : 0 < Rpower (beta - Zq c) (Zq b)) by apply Rpower_pos.
  unfold Rdiv. rewrite Rabs_mult, (Rabs_right (/ _)) by (left; apply Rinv_0_lt_compat, PP).
  apply (Rmult_lt_reg_r (Rpower (beta - Zq c) (Zq b))); [exact PP|]. rewrite Rmult_assoc, Rinv_l, Rmult_1_r by lra.
  apply Rle_lt_trans with (eps * M - 1).
  - unfold M. replace (eps * ((Rabs (Zq a) + 1) / eps) - 1) with (Rabs (Zq a)) by (field; lra). lra.
  - assert (eps * M < eps * Rpower (beta - Zq c) (Zq b)) by (apply Rmult_lt_compat_l; assumption). lra.
Qed.
Print Assumptions C44_thresholds_tend_to_isotropy.
Example C44_ex : In (-3)%Z growth_rates /\ pole (params_of (-3) MM) < 1.
Proof. split; [right; left; reflexivity|]. unfold pole, params_of, Zq. cbn. lra. Qed.

(* ================================================================ C43 *)
(** The library as it must be installed (pandas >= 2.0) cannot classify anything. *)
Theorem C43_unusable_with_required_pandas_refuted :
  forall (rows : list (XR * XR)) g, exists e, stability false g rows = Err e /\ (In g growth_rates -> e = AttributeError).
Proof.
  intros rows g. unfold stability.
  destruct (insta_params g AIC) eqn:E1, (insta_params g FMW) eqn:E2, (insta_params g MM) eqn:E3, (insta_params g OFI) eqn:E4;
    eexists; (split; [reflexivity|]); intros H; try reflexivity;
    destruct H as [<-|[<-|[<-|[]]]]; discriminate.
Qed.
Print Assumptions C43_unusable_with_required_pandas_refuted.

Lemma flag_active g i beta r : In g growth_rates ->
  match raw_flags (thresholds (params_of g) (Fin beta)) (Fin r) i with Some true => active g beta r i
  | _ => ~ active g beta r i end.
Proof.
  intros Hg. destruct (params_shape g i Hg) as (a & b & c & E & Hb & Ha & Ha').
  unfold raw_flags, thresholds, active.
  assert (EP : params_of g i = (a, b, c)) by (unfold params_of; rewrite E; reflexivity). rewrite EP.
  destruct (Rtotal_order beta (pole (a, b, c))) as [L|[L|L]].
  - rewrite (threshold_below _ _ L). change (aisnan NaN) with true. cbv iota. intros [Q _]. lra.
  - rewrite threshold_at_pole by assumption. cbn [fst].
    destruct (Rltb 0 (Zq a)) eqn:S1.
    + change (aisnan PInf) with false. cbv iota.
      assert (AB : above i).
      { destruct i; try (left; reflexivity); try (right; reflexivity); exfalso;
        (assert (a < 0)%Z by (apply Ha'; intros [Q|Q]; discriminate)); apply Rltb_true in S1; unfold Zq in S1; apply IZR_lt in H; lra. }
      destruct AB as [->| ->]; cbn [inst_test]; (change (agtb (Fin r) PInf) with false); cbn in L; intros [Q _]; cbn in Q; lra.
    + destruct (Rltb (Zq a) 0) eqn:S2; [|change (aisnan NaN) with true; intros [Q _]; lra].
      change (aisnan MInf) with false. cbv iota.
      assert (AB : i = FMW \/ i = OFI).
      { destruct i; auto; exfalso; (assert (0 < a)%Z by (apply Ha; (left; reflexivity) || (right; reflexivity)));
        apply Rltb_true in S2; unfold Zq in S2; apply (IZR_lt 0) in H; lra. }
      destruct AB as [->| ->]; cbn [inst_test]; (change (altb (Fin r) MInf) with false); intros [Q _]; cbn in Q, L; lra.
  - rewrite (threshold_value _ _ L), fin_isnan. unfold inst_test, agtb.
    destruct i; rewrite fin_ltb;
      match goal with |- context [Rltb ?x ?y] => destruct (Rltb x y) eqn:C end;
      [apply Rltb_true in C|apply Rltb_false in C|apply Rltb_true in C|apply Rltb_false in C|apply Rltb_true in C|apply Rltb_false in C|apply Rltb_true in C|apply Rltb_false in C];
      first [split; assumption | intros [_ Q]; lra].
Qed.
(** The upper and the lower instabilities are never active together. *)
Lemma upper_lower_exclusive g beta r i j : In g growth_rates -> above i -> ~ above j ->
  active g beta r i -> active g beta r j -> False.
Proof.
  intros Hg Hi Hj [P1 A1] [P2 A2].
  destruct (proj1 (C44_upper_thresholds_decrease_above_one g i Hg Hi) beta P1) as [_ T1].
  destruct (proj1 (C44_lower_thresholds_increase_below_one g j Hg Hj) beta P2) as [_ T2].
  destruct i, j; try (destruct Hi; discriminate); try (exfalso; apply Hj; (left; reflexivity) || (right; reflexivity)); lra.
Qed.
Definition act_b (f : flags) (i : inst) : bool := match f i with Some b => b | None => false end.
Lemma fill_keeps f i :
  (act_b f AIC || act_b f MM) && (act_b f FMW || act_b f OFI) = false ->
  flag (fold_left fill_flag [AIC; FMW; MM; OFI] f) i = act_b f i.
Proof.
  intros H. unfold act_b in *. destruct (f AIC) as [[]|] eqn:E1, (f FMW) as [[]|] eqn:E2, (f MM) as [[]|] eqn:E3, (f OFI) as [[]|] eqn:E4;
    try discriminate H; destruct i; cbn [fold_left]; unfold fill_flag, flag;
    repeat (cbn [others forallb set_flag andb]; rewrite ?E1, ?E2, ?E3, ?E4; cbn [andb forallb others set_flag]); try reflexivity.
Qed.
(** Every row with numbers in it gets exactly one bin, the one its active instabilities select. *)
Theorem C43_classification_total_exclusive_partial :
  forall g (rows : list (R * R)), In g growth_rates ->
  exists bins, stability true g (map (fun br => (Fin (fst br), Fin (snd br))) rows) = Ok bins /\
  Forall2 (fun (br : R * R) bin =>
     let act := active g (fst br) (snd br) in
     (bin = 4%Z /\ act MM) \/
     (bin = 3%Z /\ act AIC /\ ~ act MM) \/
     (bin = 2%Z /\ ~ act AIC /\ ~ act MM /\ ~ act FMW /\ ~ act OFI) \/
     (bin = 1%Z /\ act FMW /\ ~ act OFI) \/
     (bin = 0%Z /\ act OFI)) rows bins /\
  Forall (fun b => In b (map fst stability_map)) bins.
Proof.
  intros g rows Hg.
  set (binof := fun br : R * R => stability_bin (is_unstable (thresholds (params_of g) (Fin (fst br))) (Fin (snd br)))).
  assert (K : forall br, 
     let act := active g (fst br) (snd br) in
     (binof br = 4%Z /\ act MM) \/ (binof br = 3%Z /\ act AIC /\ ~ act MM) \/
     (binof br = 2%Z /\ ~ act AIC /\ ~ act MM /\ ~ act FMW /\ ~ act OFI) \/
     (binof br = 1%Z /\ act FMW /\ ~ act OFI) \/ (binof br = 0%Z /\ act OFI)).
  { intros [beta r]. cbv zeta. cbn [fst snd]. unfold binof. cbn [fst snd].
    pose proof (flag_active g AIC beta r Hg) as FA. pose proof (flag_active g FMW beta r Hg) as FF.
    pose proof (flag_active g MM beta r Hg) as FM. pose proof (flag_active g OFI beta r Hg) as FO.
    pose proof (upper_lower_exclusive g beta r) as X.
    set (f := raw_flags (thresholds (params_of g) (Fin beta)) (Fin r)) in *.
    assert (NA : ~ above FMW) by (intros [Q|Q]; discriminate). assert (NO : ~ above OFI) by (intros [Q|Q]; discriminate).
    assert (YA : above AIC) by (left; reflexivity). assert (YM : above MM) by (right; reflexivity).
    assert (G : forall i, act_b f i = true -> active g beta r i).
    { intros i Q. unfold act_b in Q. pose proof (flag_active g i beta r Hg) as FI. fold f in FI. destruct (f i) as [[]|]; try discriminate. exact FI. }
    assert (G' : forall i, act_b f i = false -> ~ active g beta r i).
    { intros i Q. unfold act_b in Q. pose proof (flag_active g i beta r Hg) as FI. fold f in FI. destruct (f i) as [[]|]; try discriminate; exact FI. }
    clear FA FF FM FO.
    assert (H : (act_b f AIC || act_b f MM) && (act_b f FMW || act_b f OFI) = false).
    { destruct (act_b f AIC) eqn:B1, (act_b f MM) eqn:B2, (act_b f FMW) eqn:B3, (act_b f OFI) eqn:B4; try reflexivity; exfalso;
        first [ exact (X AIC FMW Hg YA NA (G _ B1) (G _ B3)) | exact (X AIC OFI Hg YA NO (G _ B1) (G _ B4))
              | exact (X MM FMW Hg YM NA (G _ B2) (G _ B3)) | exact (X MM OFI Hg YM NO (G _ B2) (G _ B4)) ]. }
    unfold is_unstable. fold f. unfold stability_bin. rewrite !(fill_keeps f _ H).
    destruct (act_b f AIC) eqn:B1, (act_b f MM) eqn:B2, (act_b f FMW) eqn:B3, (act_b f OFI) eqn:B4; try discriminate H; cbn [negb andb];
      first [ left; split; [reflexivity|apply G; assumption]
            | right; left; split; [reflexivity|split; [apply G; assumption|apply G'; assumption]]
            | right; right; left; split; [reflexivity|repeat split; apply G'; assumption]
            | right; right; right; left; split; [reflexivity|split; [apply G; assumption|apply G'; assumption]]
            | right; right; right; right; split; [reflexivity|apply G; assumption] ]. }
  exists (map binof rows).
  assert (ST : stability true g (map (fun br : R * R => (Fin (fst br), Fin (snd br))) rows) =
               if existsb (fun b => Z.eqb b (-9999)) (map binof rows) then Err ValueError else Ok (map binof rows)).
  { unfold stability, binof, params_of.
    assert (M : forall (F : inst -> Z * Z * Z), (forall i, insta_params g i = Some (F i)) ->
       map (fun br => stability_bin (is_unstable (thresholds F (fst br)) (snd br))) (map (fun br : R * R => (Fin (fst br), Fin (snd br))) rows) =
       map (fun br => stability_bin (is_unstable (thresholds (fun i => match insta_params g i with Some p => p | None => (0, 0, 0)%Z end) (Fin (fst br))) (Fin (snd br)))) rows).
    { intros F HF. rewrite map_map. apply map_ext. intros br. cbn [fst snd].
      assert (FE : F = (fun i => match insta_params g i with Some p => p | None => (0, 0, 0)%Z end)).
      { apply FunctionalExtensionality.functional_extensionality. intros i. rewrite (HF i). reflexivity. }
      rewrite <- FE. reflexivity. }
    destruct (insta_params g AIC) as [pa|] eqn:E1; [|destruct (params_shape g AIC Hg) as (? & ? & ? & Q & _); congruence].
    destruct (insta_params g FMW) as [pf|] eqn:E2; [|destruct (params_shape g FMW Hg) as (? & ? & ? & Q & _); congruence].
    destruct (insta_params g MM) as [pm|] eqn:E3; [|destruct (params_shape g MM Hg) as (? & ? & ? & Q & _); congruence].
    destruct (insta_params g OFI) as [po|] eqn:E4; [|destruct (params_shape g OFI Hg) as (? & ? & ? & Q & _); congruence].
    cbn [negb]. rewrite (M (fun i => match i with AIC => pa | FMW => pf | MM => pm | OFI => po end)) by (intros []; assumption). reflexivity. }
  rewrite ST.
  assert (NE : existsb (fun b => Z.eqb b (-9999)) (map binof rows) = false).
  { destruct (existsb _ _) eqn:Q; [|reflexivity]. apply existsb_exists in Q. destruct Q as (b & Hb & Q). apply Z.eqb_eq in Q. subst b.
    apply in_map_iff in Hb. destruct Hb as (br & Hb & _). destruct (K br) as [[E _]|[[E _]|[[E _]|[[E _]|[E _]]]]]; rewrite Hb in E; discriminate. }
  rewrite NE. split; [reflexivity|]. split.
  - clear ST NE. induction rows as [|br l IH]; cbn [map]; constructor; [apply K|apply IH].
  - apply Forall_forall. intros b Hb. apply in_map_iff in Hb. destruct Hb as (br & <- & _). cbn.
    destruct (K br) as [[-> _]|[[-> _]|[[-> _]|[[-> _]|[-> _]]]]]; auto 6.
Qed.
Print Assumptions C43_classification_total_exclusive_partial.
(** Even then a row with missing data is called stable. *)
Theorem C43_missing_data_refuted :
  forall g (r : XR), In g growth_rates -> stability true g [(NaN, r)] = Ok [2%Z].
Proof.
  intros g r Hg. destruct Hg as [<-|[<-|[<-|[]]]]; unfold stability; cbn [insta_params negb map existsb fst snd];
    (assert (N : forall p, beta_ani_inst p (NaN : XR) = NaN) by (intros [[? ?] ?]; unfold beta_ani_inst; rewrite nan_sub_l; reflexivity));
    unfold is_unstable; cbn [fold_left]; unfold fill_flag, raw_flags, thresholds; rewrite !N; reflexivity.
Qed.
Print Assumptions C43_missing_data_refuted.
Example C43_ex : exists bins, stability true (-3) [(Fin 1, Fin 5); (Fin 1, Fin 1)] = Ok bins.
Proof. destruct (C43_classification_total_exclusive_partial (-3) [(1, 5); (1, 1)]) as (b & H & _); [right; left; reflexivity|]. exists b. exact H. Qed.

(* ================================================================ C94 *)
(** In the table legend of the threshold plot the marker in a labelled row is not that of the label. *)
Theorem C94_legend_rows_mislabelled_refuted :
  exists n label i, nth_error legend_row_labels n = Some label /\ nth_error legend_column n = Some (Some i) /\ inst_name i <> label.
Proof. exists 1%nat. eexists. eexists. split; [reflexivity|]. split; [reflexivity|]. discriminate. Qed.
Print Assumptions C94_legend_rows_mislabelled_refuted.
