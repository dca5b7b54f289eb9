(** C37-C40 (Elsasser variables), C91 (polarity), C92 (Galilean invariance of the fluctuations). *)
From Coq Require Import List String Bool Arith ZArith Reals Lra Lia Psatz.
From Verif Require Import Py PyStr Num Species Frame Plasma Vector Spacecraft Alfven VectorThms.
Import ListNotations.
Open Scope R_scope.

(* ---------------------------------------------------------------- specification *)
Definition sub3 (u v : vec3) : vec3 := add3 u (scale3 (-1) v).
(** A row with finite fluctuations; the field is rectified by the polarity if there is one. *)
Definition real_row (v b : vec3) (p : option R) : arow (T := XR) :=
  {| a_v := data3 v; a_b := data3 b; a_pol := option_map Fin p |}.
Definition rectified (b : vec3) (p : option R) : vec3 := match p with None => b | Some s => scale3 s b end.

(* ---------------------------------------------------------------- lemmas *)
Lemma sumsq3 v : sumsq_skip (data3 v) = Fin (dot3 v v).
Proof.
  destruct v as [[x y] z]. unfold sumsq_skip. cbn [data3 vcomp]. rewrite !fin_sq.
  change [Fin (x * x); Fin (y * y); Fin (z * z)] with (map Fin [x * x; y * y; z * z]).
  rewrite sum_skip_fin. simpl. f_equal. ring.
Qed.
Lemma energy3 v : energy (data3 v) = Fin (dot3 v v / 2).
Proof. unfold energy, half. rewrite sumsq3. xfin. f_equal. field. Qed.
Lemma al_b3 v b p : al_b (real_row v b p) = data3 (rectified b p).
Proof.
  destruct p as [s|], b as [[x y] z]; cbn [real_row al_b a_pol a_b option_map rectified scale3 data3]; [|reflexivity].
  unfold vbuild. cbn [vcomp]. rewrite !fin_mul. rewrite !(Rmult_comm _ s). reflexivity.
Qed.
Lemma zplus3 v b p : zplus (real_row v b p) = data3 (add3 v (rectified b p)).
Proof.
  unfold zplus. rewrite al_b3. cbn [real_row a_v]. destruct v as [[x y] z], (rectified b p) as [[c d] e].
  unfold vbuild. cbn [data3 vcomp add3]. rewrite !fin_add. reflexivity.
Qed.
Lemma zminus3 v b p : zminus (real_row v b p) = data3 (sub3 v (rectified b p)).
Proof.
  unfold zminus. rewrite al_b3. cbn [real_row a_v]. destruct v as [[x y] z], (rectified b p) as [[c d] e].
  unfold vbuild, sub3. cbn [data3 vcomp add3 scale3]. rewrite !fin_sub.
  assert (Q : forall a b, a - b = a + -1 * b) by (intros; ring). rewrite !Q. reflexivity.
Qed.
Lemma row_values v b p :
  let b' := rectified b p in
  e_plus (real_row v b p) = Fin (dot3 (add3 v b') (add3 v b') / 2) /\
  e_minus (real_row v b p) = Fin (dot3 (sub3 v b') (sub3 v b') / 2) /\
  e_v (real_row v b p) = Fin (dot3 v v / 2) /\ e_b (real_row v b p) = Fin (dot3 b' b' / 2) /\
  cross_helicity (real_row v b p) = Fin (dot3 v b' / 2).
Proof.
  cbv zeta. unfold e_plus, e_minus, e_v, e_b, cross_helicity. rewrite zplus3, zminus3, al_b3. cbn [real_row a_v].
  rewrite !energy3, vdot_data3. unfold half. xfin. repeat split. f_equal. field.
Qed.
Lemma dot_plus v b : dot3 (add3 v b) (add3 v b) = dot3 v v + 2 * dot3 v b + dot3 b b.
Proof. destruct v as [[x y] z], b as [[c d] e]. simpl. ring. Qed.
Lemma dot_minus v b : dot3 (sub3 v b) (sub3 v b) = dot3 v v - 2 * dot3 v b + dot3 b b.
Proof. destruct v as [[x y] z], b as [[c d] e]. unfold sub3. simpl. ring. Qed.
Lemma cauchy v b : dot3 v b * dot3 v b <= dot3 v v * dot3 b b.
Proof.
  destruct v as [[x y] z], b as [[c d] e]. simpl.
  pose proof (pow2_ge_0 (x * d - y * c)). pose proof (pow2_ge_0 (x * e - z * c)). pose proof (pow2_ge_0 (y * e - z * d)). nra.
Qed.

(* ================================================================ C37 *)
Theorem C37_elsasser_energy_balance :
  forall v b p, exists ep em ev eb c,
  e_plus (real_row v b p) = Fin ep /\ e_minus (real_row v b p) = Fin em /\
  e_v (real_row v b p) = Fin ev /\ e_b (real_row v b p) = Fin eb /\ cross_helicity (real_row v b p) = Fin c /\
  e_tot (real_row v b p) = Fin (ev + eb) /\ e_res (real_row v b p) = Fin (ev - eb) /\
  (* the energies are half the squared lengths *)
  ev = dot3 v v / 2 /\ eb = dot3 (rectified b p) (rectified b p) / 2 /\
  0 <= ep /\ 0 <= em /\ 0 <= ev /\ 0 <= eb /\
  ep + em = 2 * (ev + eb) /\ ep - em = 4 * c.
Proof.
  intros v b p. destruct (row_values v b p) as (E1 & E2 & E3 & E4 & E5).
  set (b' := rectified b p) in *.
  exists (dot3 (add3 v b') (add3 v b') / 2), (dot3 (sub3 v b') (sub3 v b') / 2), (dot3 v v / 2), (dot3 b' b' / 2), (dot3 v b' / 2).
  unfold e_tot, e_res. rewrite E1, E2, E3, E4, E5, fin_add, fin_sub.
  pose proof (dot3_pos (add3 v b')). pose proof (dot3_pos (sub3 v b')). pose proof (dot3_pos v). pose proof (dot3_pos b').
  repeat split; try lra; rewrite dot_plus, dot_minus; lra.
Qed.
Print Assumptions C37_elsasser_energy_balance.

(* ================================================================ C38 *)
Theorem C38_normalised_quantities_bounded :
  forall v b p t, e_tot (real_row v b p) = Fin t -> 0 < t ->
  exists sc sr, sigma_c (real_row v b p) = Fin sc /\ sigma_r (real_row v b p) = Fin sr /\
    -1 <= sc <= 1 /\ -1 <= sr <= 1 /\ sc ^ 2 + sr ^ 2 <= 1.
Proof.
  intros v b p t Ht Pt. destruct (row_values v b p) as (E1 & E2 & E3 & E4 & E5).
  set (b' := rectified b p) in *.
  unfold e_tot in Ht. rewrite E3, E4, fin_add in Ht. injection Ht as Ht.
  pose proof (dot3_pos v) as PV. pose proof (dot3_pos b') as PB. pose proof (cauchy v b') as CS.
  assert (D : dot3 (add3 v b') (add3 v b') / 2 + dot3 (sub3 v b') (sub3 v b') / 2 = 2 * t) by (rewrite dot_plus, dot_minus; lra).
  exists (dot3 v b' / t), ((dot3 v v / 2 - dot3 b' b' / 2) / t).
  unfold sigma_c, sigma_r, e_res, e_tot. rewrite E1, E2, E3, E4, !fin_sub, !fin_add, D.
  replace (dot3 v v / 2 + dot3 b' b' / 2) with t by lra. rewrite !fin_div by lra.
  split. { f_equal. rewrite dot_plus, dot_minus. field. lra. }
  split; [reflexivity|].
  set (x := dot3 v v) in *. set (y := dot3 b' b') in *. set (c := dot3 v b') in *.
  assert (S : (c / t) ^ 2 + ((x / 2 - y / 2) / t) ^ 2 <= 1).
  { replace ((c / t) ^ 2 + ((x / 2 - y / 2) / t) ^ 2) with ((c * c + (x / 2 - y / 2) * (x / 2 - y / 2)) / (t * t)) by (field; lra).
    assert (TT : 0 < t * t) by nra. apply (Rmult_le_reg_r (t * t)); [exact TT|].
    unfold Rdiv at 1. rewrite Rmult_assoc, Rinv_l, Rmult_1_r, Rmult_1_l by lra. rewrite <- Ht. lra. }
  assert (Q : forall a b0, a ^ 2 + b0 ^ 2 <= 1 -> -1 <= a <= 1) by (intros a b0 H; pose proof (pow2_ge_0 b0); split; nra).
  split; [apply (Q _ _ S)|]. split; [apply (Q _ (c / t)); lra|exact S].
Qed.
Print Assumptions C38_normalised_quantities_bounded.
Example C38_ex : exists t, e_tot (real_row (3, 0, 0) (0, 4, 0) (Some (-1))) = Fin t /\ 0 < t.
Proof.
  destruct (row_values (3, 0, 0) (0, 4, 0) (Some (-1))) as (_ & _ & E3 & E4 & _).
  eexists. unfold e_tot. rewrite E3, E4, fin_add. split; [reflexivity|]. simpl. lra.
Qed.

(* ================================================================ C39 *)
Theorem C39_ratios :
  forall v b p ep em ev eb,
  e_plus (real_row v b p) = Fin ep -> e_minus (real_row v b p) = Fin em ->
  e_v (real_row v b p) = Fin ev -> e_b (real_row v b p) = Fin eb ->
  (ep <> 0 -> exists sc, sigma_c (real_row v b p) = Fin sc /\ 1 + sc <> 0 /\
     elsasser_ratio (real_row v b p) = Fin (em / ep) /\ em / ep = (1 - sc) / (1 + sc)) /\
  (eb <> 0 -> exists sr, sigma_r (real_row v b p) = Fin sr /\ 1 - sr <> 0 /\
     alfven_ratio (real_row v b p) = Fin (ev / eb) /\ ev / eb = (1 + sr) / (1 - sr)).
Proof.
  intros v b p ep em ev eb H1 H2 H3 H4. destruct (row_values v b p) as (E1 & E2 & E3 & E4 & _).
  assert (P1 : 0 <= ep) by (rewrite E1 in H1; injection H1 as <-; pose proof (dot3_pos (add3 v (rectified b p))); lra).
  assert (P2 : 0 <= em) by (rewrite E2 in H2; injection H2 as <-; pose proof (dot3_pos (sub3 v (rectified b p))); lra).
  assert (P3 : 0 <= ev) by (rewrite E3 in H3; injection H3 as <-; pose proof (dot3_pos v); lra).
  assert (P4 : 0 <= eb) by (rewrite E4 in H4; injection H4 as <-; pose proof (dot3_pos (rectified b p)); lra).
  clear E1 E2 E3 E4. split; intros N.
  - exists ((ep - em) / (ep + em)). unfold sigma_c, elsasser_ratio. rewrite H1, H2, fin_sub, fin_add, !fin_div by lra.
    assert (1 + (ep - em) / (ep + em) = 2 * ep / (ep + em)) by (field; lra).
    assert (ND : 2 * ep / (ep + em) <> 0).
    { unfold Rdiv. apply Rmult_integral_contrapositive_currified; [lra|]. apply Rinv_neq_0_compat. lra. }
    repeat split; [rewrite H; exact ND|]. rewrite H. field. split; lra.
  - exists ((ev - eb) / (ev + eb)). unfold sigma_r, alfven_ratio, e_res, e_tot. rewrite H3, H4, fin_sub, fin_add, !fin_div by lra.
    assert (1 - (ev - eb) / (ev + eb) = 2 * eb / (ev + eb)) by (field; lra).
    assert (ND : 2 * eb / (ev + eb) <> 0).
    { unfold Rdiv. apply Rmult_integral_contrapositive_currified; [lra|]. apply Rinv_neq_0_compat. lra. }
    repeat split; [rewrite H; exact ND|]. rewrite H. field. split; lra.
Qed.
Print Assumptions C39_ratios.

(* ================================================================ C40 *)
Definition all_nan : vec XR := (NaN, NaN, NaN).
(** What the code reports where the rolling mean is undefined: all energies are the number 0, only the
    normalised quantities are missing. *)
Lemma energy_nan : energy all_nan = Fin 0.
Proof.
  unfold energy, half, sumsq_skip. cbn [all_nan vcomp]. change (asq NaN) with NaN. rewrite sum_skip_3nan.
  xfin. f_equal. field.
Qed.
Lemma zero_over_zero : (Fin 0 / Fin 0)%num = NaN.
Proof.
  change ((Fin 0 / Fin 0)%num) with (xdiv (Fin 0) (Fin 0)). unfold xdiv.
  assert (E : Reqb 0 0 = true) by (apply Reqb_true; reflexivity). rewrite E.
  unfold inf_sign. assert (E2 : Rltb 0 0 = false) by (apply Rltb_false; lra). rewrite E2. reflexivity.
Qed.
Theorem C40_undefined_rows_report_zero_energy_partial :
  forall p, let r := {| a_v := all_nan; a_b := all_nan; a_pol := p |} in
  e_v r = Fin 0 /\ e_b r = Fin 0 /\ e_plus r = Fin 0 /\ e_minus r = Fin 0 /\ e_tot r = Fin 0 /\
  cross_helicity r = Fin 0 /\ sigma_c r = NaN /\ sigma_r r = NaN.
Proof.
  intros p r.
  assert (B : al_b r = all_nan).
  { unfold al_b, r. cbn [a_pol a_b]. destruct p as [s|]; [|reflexivity]. unfold vbuild. cbn [all_nan vcomp]. rewrite !nan_mul_l. reflexivity. }
  assert (ZP : zplus r = all_nan) by (unfold zplus; rewrite B; reflexivity).
  assert (ZM : zminus r = all_nan) by (unfold zminus; rewrite B; reflexivity).
  assert (E1 : e_v r = Fin 0) by (unfold e_v; apply energy_nan).
  assert (E2 : e_b r = Fin 0) by (unfold e_b; rewrite B; apply energy_nan).
  assert (E3 : e_plus r = Fin 0) by (unfold e_plus; rewrite ZP; apply energy_nan).
  assert (E4 : e_minus r = Fin 0) by (unfold e_minus; rewrite ZM; apply energy_nan).
  unfold e_tot, sigma_c, sigma_r, e_res, e_tot, cross_helicity. rewrite E1, E2, E3, E4, B.
  unfold vdot_skip. cbn [r a_v all_nan vcomp]. rewrite !nan_mul_l, sum_skip_3nan. unfold half. xfin.
  replace (0 + 0) with 0 by ring. replace (0 - 0) with 0 by ring. rewrite zero_over_zero.
  repeat split; try reflexivity; f_equal; field.
Qed.
Print Assumptions C40_undefined_rows_report_zero_energy_partial.
(** So the claim fails: with the default 5 required rows, the first row of perfectly valid data has
    undefined fluctuations and yet a kinetic energy, 0. *)
Theorem C40_warm_up_rows_refuted :
  exists rows out r rest, alfven_rows true (Fin 1) 900 5 rows = Ok out /\ out = r :: rest /\ a_v r = all_nan /\
    e_v r = Fin 0 /\ e_tot r = Fin 0.
Proof.
  assert (E : forall x, deltas (T := XR) 900 5 [(0%Z, x)] = [NaN]).
  { intros x. unfold deltas, rolling_mean. cbn [map snd rolling_from app sub_list].
    assert (M : mean_min 5 (window_values 900 0 [(0%Z, x)]) = NaN).
    { unfold mean_min, window_values. cbn [filter map fst snd Z.ltb Z.compare Z.sub Z.add Z.opp].
      destruct (aisfin x); reflexivity. }
    rewrite M, nan_sub_r. reflexivity. }
  assert (EV : forall v : vec XR, vec_deltas 900 5 [(0%Z, v)] = [all_nan]).
  { intros v. unfold vec_deltas, col. cbn [map fst snd]. rewrite !E. reflexivity. }
  exists [(0%Z, (data3 (400, 0, 0), data3 (5, 0, 0), Fin 1))], [{| a_v := all_nan; a_b := all_nan; a_pol := None |}].
  eexists; eexists. split.
  - unfold alfven_rows. cbn [negb sorted_index map fst snd]. rewrite !EV. reflexivity.
  - split; [reflexivity|]. cbn [a_v]. split; [reflexivity|].
    destruct (C40_undefined_rows_report_zero_energy_partial None) as (E1 & _ & _ & _ & E5 & _).
    split; [exact E1|exact E5].
Qed.
Print Assumptions C40_warm_up_rows_refuted.

(* ================================================================ C91 *)
Lemma dot_scale s b : dot3 (scale3 s b) (scale3 s b) = s * s * dot3 b b.
Proof. destruct b as [[x y] z]. simpl. ring. Qed.
Theorem C91_polarity_preserves_energies :
  forall v b s, s = 1 \/ s = -1 ->
  e_v (real_row v b (Some s)) = e_v (real_row v b None) /\
  e_b (real_row v b (Some s)) = e_b (real_row v b None) /\
  e_tot (real_row v b (Some s)) = e_tot (real_row v b None) /\
  e_res (real_row v b (Some s)) = e_res (real_row v b None) /\
  sigma_r (real_row v b (Some s)) = sigma_r (real_row v b None) /\
  (exists c, cross_helicity (real_row v b None) = Fin c /\ cross_helicity (real_row v b (Some s)) = Fin (s * c)) /\
  (* with polarity -1 the two Elsasser populations change places *)
  (s = -1 -> e_plus (real_row v b (Some s)) = e_minus (real_row v b None) /\
             e_minus (real_row v b (Some s)) = e_plus (real_row v b None)).
Proof.
  intros v b s Hs.
  destruct (row_values v b (Some s)) as (E1 & E2 & E3 & E4 & E5).
  destruct (row_values v b None) as (F1 & F2 & F3 & F4 & F5). cbn [rectified] in *.
  assert (SS : s * s = 1) by (destruct Hs as [-> | ->]; ring).
  rewrite dot_scale, SS, Rmult_1_l in E4.
  assert (DS : dot3 v (scale3 s b) = s * dot3 v b) by (destruct v as [[x y] z], b as [[c d] e]; simpl; ring).
  unfold sigma_r, e_tot, e_res. rewrite E3, E4, F3, F4. repeat split.
  - exists (dot3 v b / 2). rewrite E5, F5, DS. split; [reflexivity|]. f_equal. field.
  - rewrite E1, F2, dot_plus, dot_minus, DS, dot_scale, SS. subst s. f_equal. field.
  - rewrite E2, F1, dot_plus, dot_minus, DS, dot_scale, SS. subst s. f_equal. field.
Qed.
Print Assumptions C91_polarity_preserves_energies.
(** The polarity of a row with finite data is 1, 0 or -1, and 0 only if v and b are orthogonal in the x-y plane. *)
Theorem C91_polarity_values :
  forall v b, exists s, polarity (data3 v) (data3 b) = Fin s /\
    (s = 1 \/ s = -1 \/ (s = 0 /\ (let '(x, y, _) := v in let '(c, d, _) := b in x * c + y * d = 0))).
Proof.
  intros [[x y] z] [[c d] e]. unfold polarity. cbn [data3 vcomp]. rewrite !fin_mul.
  change [Fin (x * c); Fin (y * d)] with (map Fin [x * c; y * d]). rewrite sum_skip_fin.
  cbn [Rsum fold_right]. unfold asign. rewrite fin_isnan, fin_a0, !fin_ltb.
  destruct (Rltb 0 _) eqn:P1; [eexists; rewrite fin_ofZ; split; [reflexivity|]; left; reflexivity|].
  destruct (Rltb _ 0) eqn:P2; [eexists; rewrite fin_ofZ; split; [reflexivity|]; right; left; reflexivity|].
  apply Rltb_false in P1, P2. exists 0. split; [reflexivity|]. right; right. split; [reflexivity|]. simpl in P1, P2. lra.
Qed.
Print Assumptions C91_polarity_values.
(** A row whose measured field is orthogonal to the flow in the x-y plane has polarity 0: its magnetic energy disappears. *)
Theorem C91_energies_with_zero_polarity_refuted :
  exists mv mb v b, polarity (data3 mv) (data3 mb) = Fin 0 /\
    e_b (real_row v b None) = Fin (1 / 2) /\ e_b (real_row v b (Some 0)) = Fin 0.
Proof.
  exists (400, 0, 0), (0, 5, 0), (1, 0, 0), (0, 1, 0).
  destruct (row_values (1, 0, 0) (0, 1, 0) (Some 0)) as (_ & _ & _ & E4 & _).
  destruct (row_values (1, 0, 0) (0, 1, 0) None) as (_ & _ & _ & F4 & _).
  split.
  - destruct (C91_polarity_values (400, 0, 0) (0, 5, 0)) as (s & H & [-> | [-> | [-> _]]]); [| |exact H].
    + exfalso. revert H. unfold polarity. cbn [data3 vcomp]. rewrite !fin_mul.
      change [Fin (400 * 0); Fin (0 * 5)] with (map Fin [400 * 0; 0 * 5]). rewrite sum_skip_fin.
      replace (Rsum [400 * 0; 0 * 5]) with 0 by (simpl; ring). unfold asign. rewrite fin_isnan, fin_a0, !fin_ltb.
      assert (Z0 : Rltb 0 0 = false) by (apply Rltb_false; lra). rewrite Z0. intros H. injection H. lra.
    + exfalso. revert H. unfold polarity. cbn [data3 vcomp]. rewrite !fin_mul.
      change [Fin (400 * 0); Fin (0 * 5)] with (map Fin [400 * 0; 0 * 5]). rewrite sum_skip_fin.
      replace (Rsum [400 * 0; 0 * 5]) with 0 by (simpl; ring). unfold asign. rewrite fin_isnan, fin_a0, !fin_ltb.
      assert (Z0 : Rltb 0 0 = false) by (apply Rltb_false; lra). rewrite Z0. intros H. injection H. lra.
  - rewrite E4, F4. cbn [rectified scale3 dot3]. split; f_equal; field.
Qed.
Print Assumptions C91_energies_with_zero_polarity_refuted.

(* ================================================================ C92 *)
(** A column of numbers, some of them missing. *)
Definition cell (o : option R) : XR := match o with Some x => Fin x | None => NaN end.
Definition column (l : list (Z * option R)) : list (Z * XR) := map (fun tx => (fst tx, cell (snd tx))) l.
Definition present (l : list (option R)) : list R := flat_map (fun o => match o with Some x => [x] | None => [] end) l.
(** The numbers in the window of the i-th row: rows 0..i whose time is after t - w. *)
Definition in_window (w : Z) (l : list (Z * option R)) (i : nat) (t : Z) : list R :=
  present (map snd (filter (fun tx => Z.ltb (t - w) (fst tx)) (firstn (S i) l))).
Definition mean (l : list R) : R := Rsum l / INR (List.length l).

Lemma window_column w t l :
  window_values (T := XR) w t (column l) = map Fin (present (map snd (filter (fun tx => Z.ltb (t - w) (fst tx)) l))).
Proof.
  unfold window_values, column. induction l as [|[u o] l IH]; [reflexivity|]. cbn [map filter fst snd].
  destruct (t - w <? u)%Z; [|exact IH]. cbn [map snd filter]. destruct o as [x|]; cbn [cell].
  - rewrite fin_isfin. cbn [present flat_map app map]. rewrite IH. reflexivity.
  - change (aisfin NaN) with false. cbv iota. rewrite IH. reflexivity.
Qed.
Lemma mean_min_fin mp l :
  mean_min mp (map Fin l) = if Nat.leb mp (List.length l) && Nat.leb 1 (List.length l) then Fin (mean l) else NaN.
Proof.
  unfold mean_min. rewrite map_length. destruct (Nat.leb mp (List.length l)) eqn:E1; [|reflexivity].
  destruct (Nat.leb 1 (List.length l)) eqn:E2; [|reflexivity]. cbn [andb].
  rewrite sum_strict_fin, fin_ofZ. apply Nat.leb_le in E2. rewrite <- INR_IZR_INZ. rewrite fin_div; [reflexivity|].
  apply not_0_INR. lia.
Qed.
Lemma rolling_from_length w mp rows : forall seen, List.length (rolling_from (T := XR) w mp seen rows) = List.length rows.
Proof. induction rows as [|[t x] rows IH]; intros seen; [reflexivity|]. cbn. rewrite IH. reflexivity. Qed.
Lemma sub_list_nth : forall (a b : list XR) i x y, nth_error a i = Some x -> nth_error b i = Some y ->
  nth_error (sub_list a b) i = Some (asub x y).
Proof.
  induction a as [|u a IH]; intros [|v b] [|i] x y H1 H2; try discriminate; cbn in *.
  - injection H1 as ->. injection H2 as ->. reflexivity.
  - apply IH; assumption.
Qed.
Lemma rolling_from_nth w mp rows : forall seen i t x, nth_error rows i = Some (t, x) ->
  nth_error (rolling_from (T := XR) w mp seen rows) i = Some (mean_min mp (window_values w t (seen ++ firstn (S i) rows))).
Proof.
  induction rows as [|[u y] rows IH]; intros seen [|i] t x H; try discriminate; cbn in H.
  - injection H as -> ->. cbn [rolling_from nth_error firstn]. destruct rows; reflexivity.
  - cbn [rolling_from nth_error]. rewrite (IH _ _ _ _ H). rewrite <- app_assoc. reflexivity.
Qed.
(** Every fluctuation is the value minus the mean of the numbers in its window, missing if there are too few. *)
Theorem C92_fluctuation_is_value_minus_window_mean :
  forall w mp l i t o, nth_error l i = Some (t, o) ->
  nth_error (deltas w mp (column l)) i =
    Some (match o with
          | Some x => if Nat.leb mp (List.length (in_window w l i t)) && Nat.leb 1 (List.length (in_window w l i t))
                      then Fin (x - mean (in_window w l i t)) else NaN
          | None => NaN
          end).
Proof.
  intros w mp l i t o H. unfold deltas, rolling_mean.
  assert (H1 : nth_error (column l) i = Some (t, cell o)) by (unfold column; rewrite nth_error_map, H; reflexivity).
  assert (H2 : nth_error (map snd (column l)) i = Some (cell o)) by (rewrite nth_error_map, H1; reflexivity).
  rewrite (sub_list_nth _ _ _ _ _ H2 (rolling_from_nth w mp _ [] _ _ _ H1)). f_equal. cbn [app].
  assert (F : firstn (S i) (column l) = column (firstn (S i) l)) by (unfold column; apply firstn_map).
  rewrite F, window_column, mean_min_fin. fold (in_window w l i t).
  destruct o as [x|]; cbn [cell]; [|apply nan_sub_l].
  destruct (_ && _); [apply fin_sub|apply nan_sub_r].
Qed.
Print Assumptions C92_fluctuation_is_value_minus_window_mean.
Theorem C92_one_fluctuation_per_row :
  forall w mp (l : list (Z * XR)), List.length (deltas w mp l) = List.length l.
Proof.
  intros. unfold deltas, rolling_mean.
  assert (G : forall a b : list XR, List.length a = List.length b -> List.length (sub_list a b) = List.length a).
  { induction a as [|x a IH]; intros [|y b] E; try discriminate; cbn in *; [reflexivity|]. rewrite IH; lia. }
  rewrite G; rewrite map_length; [reflexivity|]. rewrite rolling_from_length. reflexivity.
Qed.

Definition shift (c : R) (l : list (Z * option R)) : list (Z * option R) :=
  map (fun tx => (fst tx, option_map (fun x => x + c) (snd tx))) l.
Lemma in_window_shift w c l i t : in_window w (shift c l) i t = map (fun x => x + c) (in_window w l i t).
Proof.
  unfold in_window, shift. rewrite firstn_map. generalize (firstn (S i) l) as k. clear.
  induction k as [|[u o] k IH]; [reflexivity|]. cbn [map filter fst snd].
  destruct (t - w <? u)%Z; [|exact IH]. cbn [map snd present flat_map].
  destruct o as [x|]; cbn [option_map app map]; [f_equal|]; exact IH.
Qed.
Lemma mean_shift c l : l <> [] -> mean (map (fun x => x + c) l) = mean l + c.
Proof.
  intros H. unfold mean. rewrite map_length.
  assert (S : Rsum (map (fun x => x + c) l) = Rsum l + INR (List.length l) * c).
  { clear H. induction l as [|x l IH]; [simpl; ring|]. cbn [map List.length]. rewrite S_INR.
    unfold Rsum in *. cbn [fold_right]. rewrite IH. ring. }
  rewrite S. field. apply not_0_INR. destruct l; [contradiction|]. cbn. lia.
Qed.
(** Adding a constant to a column (another inertial frame) leaves its fluctuations unchanged. *)
Theorem C92_fluctuations_galilean_invariant :
  forall w mp l c, deltas w mp (column (shift c l)) = deltas w mp (column l).
Proof.
  intros w mp l c.
  assert (L : List.length (deltas w mp (column (shift c l))) = List.length (deltas w mp (column l))).
  { rewrite !C92_one_fluctuation_per_row. unfold column, shift. rewrite !map_length. reflexivity. }
  assert (G : forall i, nth_error (deltas w mp (column (shift c l))) i = nth_error (deltas w mp (column l)) i).
  { intros i. destruct (nth_error l i) as [[t o]|] eqn:E.
    - assert (E' : nth_error (shift c l) i = Some (t, option_map (fun x => x + c) o)) by (unfold shift; rewrite nth_error_map, E; reflexivity).
      rewrite (C92_fluctuation_is_value_minus_window_mean _ _ _ _ _ _ E'), (C92_fluctuation_is_value_minus_window_mean _ _ _ _ _ _ E).
      rewrite in_window_shift, map_length. destruct o as [x|]; cbn [option_map]; [|reflexivity].
      destruct (_ && _) eqn:B; [|reflexivity]. rewrite mean_shift; [f_equal; f_equal; ring|].
      apply andb_prop in B. destruct B as [_ B]. apply Nat.leb_le in B. intros Q. rewrite Q in B. cbn in B. lia.
    - apply nth_error_None in E.
      assert (E1 : nth_error (deltas w mp (column (shift c l))) i = None).
      { apply nth_error_None. rewrite C92_one_fluctuation_per_row. unfold column, shift. rewrite !map_length. exact E. }
      assert (E2 : nth_error (deltas w mp (column l)) i = None).
      { apply nth_error_None. rewrite C92_one_fluctuation_per_row. unfold column. rewrite map_length. exact E. }
      rewrite E1, E2. reflexivity. }
  revert L G. generalize (deltas w mp (column (shift c l))) as a. generalize (deltas w mp (column l)) as b.
  clear. intros b a. revert b. induction a as [|x a IH]; intros [|y b] L G; try discriminate; [reflexivity|].
  f_equal; [generalize (G 0%nat); cbn; congruence|]. apply IH; [cbn in L; lia|]. intros i. apply (G (S i)).
Qed.
Print Assumptions C92_fluctuations_galilean_invariant.
(** Constant data does not fluctuate. *)
Theorem C92_constant_data_has_no_fluctuations :
  forall w mp c l d, (forall tx, In tx l -> snd tx = Some c \/ snd tx = None) ->
  In d (deltas w mp (column l)) -> d = Fin 0 \/ d = NaN.
Proof.
  intros w mp c l d Hc Hd. apply In_nth_error in Hd. destruct Hd as [i Hi].
  destruct (nth_error l i) as [[t o]|] eqn:E.
  - rewrite (C92_fluctuation_is_value_minus_window_mean _ _ _ _ _ _ E) in Hi. injection Hi as <-.
    destruct o as [x|]; [|right; reflexivity]. destruct (_ && _) eqn:B; [|right; reflexivity]. left. f_equal.
    assert (X : x = c) by (destruct (Hc _ (nth_error_In _ _ E)) as [Q|Q]; cbn in Q; congruence). subst x.
    assert (A : forall y, In y (in_window w l i t) -> y = c).
    { intros y Hy. unfold in_window, present in Hy. apply in_flat_map in Hy. destruct Hy as (o & Ho & Hy).
      apply in_map_iff in Ho. destruct Ho as (tx & <- & Ht). apply filter_In in Ht. destruct Ht as [Ht _].
      assert (Hin : In tx l).
      { rewrite <- (firstn_skipn (S i) l). apply in_or_app. left. exact Ht. }
      destruct (Hc tx Hin) as [Q|Q]; rewrite Q in Hy; cbn in Hy; [destruct Hy as [Hy|[]]; congruence|contradiction]. }
    assert (NE : List.length (in_window w l i t) <> 0%nat) by (intros Q; rewrite Q in B; rewrite Bool.andb_comm in B; discriminate B).
    assert (S : Rsum (in_window w l i t) = INR (List.length (in_window w l i t)) * c).
    { clear B NE. induction (in_window w l i t) as [|y k IH]; [simpl; ring|]. cbn [List.length]. rewrite S_INR.
      unfold Rsum in *. cbn [fold_right]. rewrite IH by (intros; apply A; right; assumption).
      rewrite (A y) by (left; reflexivity). ring. }
    unfold mean. rewrite S. field. apply not_0_INR. lia.
  - exfalso. apply nth_error_None in E.
    assert (L : nth_error (deltas w mp (column l)) i = None).
    { apply nth_error_None. rewrite C92_one_fluctuation_per_row. unfold column. rewrite map_length. exact E. }
    congruence.
Qed.
Print Assumptions C92_constant_data_has_no_fluctuations.
Example C92_ex : in_window 10 [(0%Z, Some 1); (5%Z, None); (12%Z, Some 3); (13%Z, Some 5)] 3 13 = [3; 5].
Proof. reflexivity. Qed.
