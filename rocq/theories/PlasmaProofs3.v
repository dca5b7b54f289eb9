(** Velocities, dynamic pressure, collisions and electrons. *)
From Coq Require Import List String Ascii Bool Arith ZArith Reals Lra Lia Psatz Permutation Sorted.
From Verif Require Import Py PyStr Sort Num Species SpeciesProofs Frame Plasma PlasmaProofs PlasmaProofs2.
Import ListNotations.
Open Scope string_scope.
Open Scope R_scope.

(** species [s] moves with (vx, vy, vz) in row r *)
Definition has_v (r : row XR) (s : string) (x y z : R) : Prop :=
  r ("v", "x", s) = Fin x /\ r ("v", "y", s) = Fin y /\ r ("v", "z", s) = Fin z.

Lemma velocity_one K ions s :
  legal s -> In s ions -> velocity (T := XR) K ions [PStr s] false = Ok (VOne (ion_v s)).
Proof.
  intros Hl Hi. unfold velocity. rewrite chk_one by assumption. simpl.
  apply mem_str_In in Hi. rewrite Hi. reflexivity.
Qed.

Lemma sort_two_up names : (1 < List.length names)%nat ->
  exists x y l, sort_str names = x :: y :: l.
Proof.
  intros H. rewrite <- sort_length in H. destruct (sort_str names) as [|x [|y l]]; simpl in H; try lia.
  eauto.
Qed.

Lemma velocity_com k ions names :
  usable ions names -> (1 < List.length names)%nat ->
  velocity (kx k) ions [PStr (join "+" names)] false =
  Ok (VOne (com_velocity (map (fun s => (s, (ion_v s, rho_fun k s))) (sort_str names)))).
Proof.
  intros U L. unfold velocity. rewrite chk_join by apply U. unfold bind at 1.
  pose proof (per_species_ok ions (fun s => Ok (ion_v s)) (ion_v (T := XR)) names (us_ne _ _ U) (us_nodup _ _ U)
                (us_in _ _ U) (fun s _ => eq_refl)) as H1.
  assert (H2 : per_species ions (fun s => bind (ion_rho (kx k) s) (fun rho => Ok (ion_v (T := XR) s, rho))) (sort_str names)
               = Ok (map (fun s => (s, (ion_v s, rho_fun k s))) (sort_str names))).
  { apply (per_species_ok ions _ (fun s => (ion_v s, rho_fun k s))); try apply U.
    intros s Hs. rewrite ion_rho_ok by (apply U, Hs). reflexivity. }
  destruct (sort_two_up names L) as (x & y & l & E). rewrite E in *.
  cbv beta iota. rewrite H1. unfold bind at 1. rewrite H2. reflexivity.
Qed.

Lemma velocity_each k ions names :
  usable ions names -> (1 < List.length names)%nat ->
  velocity (kx k) ions (map PStr names) false =
  Ok (VEach (map (fun s => (s, ion_v s)) (sort_str names))).
Proof.
  intros U L. unfold velocity. rewrite chk_many by (try apply U; lia). unfold bind at 1.
  pose proof (per_species_ok ions (fun s => Ok (ion_v s)) (ion_v (T := XR)) names (us_ne _ _ U) (us_nodup _ _ U)
                (us_in _ _ U) (fun s _ => eq_refl)) as H1.
  destruct (sort_two_up names L) as (x & y & l & E). rewrite E in *.
  cbv beta iota. rewrite H1. unfold bind.
  destruct names as [|a [|b m]]; simpl in L; try lia. reflexivity.
Qed.

Definition Rmean (w v : string -> R) (names : list string) : R :=
  Rsum (map (fun s => v s * w s) names) / Rsum (map w names).

Lemma sum_skip_list (names : list string) (g : string -> XR) (f : string -> R) :
  (forall s, In s names -> g s = Fin (f s)) ->
  sum_skip (map g (sort_str names)) = Fin (Rsum (map f names)).
Proof.
  intros H. rewrite (map_ext_in _ (fun s => Fin (f s))) by (intros s Hs; rewrite sort_In in Hs; auto).
  rewrite <- (map_map f Fin), sum_skip_fin, Rsum_sort. reflexivity.
Qed.

Lemma com_velocity_val k names r n vx vy vz :
  (forall s, In s names -> r ("n", "", s) = Fin (n s)) ->
  (forall s, In s names -> has_v r s (vx s) (vy s) (vz s)) ->
  Rsum (map (fun s => n s * mmp k s) names) <> 0 ->
  com_velocity (map (fun s => (s, (ion_v s, rho_fun k s))) (sort_str names)) r =
  (Fin (Rmean (fun s => n s * mmp k s) vx names),
   Fin (Rmean (fun s => n s * mmp k s) vy names),
   Fin (Rmean (fun s => n s * mmp k s) vz names)).
Proof.
  intros Hn Hv Hnz. unfold com_velocity, vbuild. rewrite !map_map. cbn [fst snd].
  assert (HR : sum_skip (map (fun s => rho_fun k s r) (sort_str names))
               = Fin (Rsum (map (fun s => n s * mmp k s) names))).
  { apply sum_skip_list. intros s Hs. apply rho_fun_fin, Hn, Hs. }
  rewrite HR. unfold Rmean.
  assert (HC : forall i v, (forall s, In s names -> vcomp i (ion_v s r) = Fin (v s)) ->
     adiv (sum_skip (map (fun s => (vcomp i (ion_v s r) * rho_fun k s r)%num) (sort_str names)))
      (Fin (Rsum (map (fun s => n s * mmp k s) names)))
     = Fin (Rsum (map (fun s => v s * (n s * mmp k s)) names) / Rsum (map (fun s => n s * mmp k s) names))).
  { intros i v H. rewrite (sum_skip_list names _ (fun s => v s * (n s * mmp k s))).
    - apply fin_div, Hnz.
    - intros s Hs. rewrite (H s Hs), (rho_fun_fin k s r (n s) (Hn s Hs)). apply fin_mul. }
  f_equal; [f_equal|]; apply HC; intros s Hs; destruct (Hv s Hs) as (Ex & Ey & Ez);
    unfold ion_v, vcomp; assumption.
Qed.

(** weighted means *)
Lemma Rsum_pos_cons f l : l <> [] -> (forall s : string, In s l -> 0 < f s) -> 0 < Rsum (map f l).
Proof.
  destruct l as [|x l]; [congruence|]. intros _ H. simpl.
  pose proof (H x (or_introl eq_refl)).
  assert (0 <= Rsum (map f l)).
  { apply Rsum_nonneg. intros y Hy. apply in_map_iff in Hy as [z [<- Hz]]. left. apply H. right; exact Hz. }
  lra.
Qed.
Lemma Rmean_bounds w v names lo hi :
  names <> [] -> (forall s, In s names -> 0 < w s) ->
  (forall s, In s names -> lo <= v s <= hi) -> lo <= Rmean w v names <= hi.
Proof.
  intros Hne Hw Hv. unfold Rmean. pose proof (Rsum_pos_cons w names Hne Hw) as Hp.
  assert (H : lo * Rsum (map w names) <= Rsum (map (fun s => v s * w s) names) <= hi * Rsum (map w names)).
  { clear Hp. clear Hne. induction names as [|x l IH]; simpl; [lra|].
    assert (IH' := IH (fun s Hs => Hw s (or_intror Hs)) (fun s Hs => Hv s (or_intror Hs))).
    pose proof (Hw x (or_introl eq_refl)). pose proof (Hv x (or_introl eq_refl)). nra. }
  split.
  - apply Rmult_le_reg_r with (Rsum (map w names)); [exact Hp|].
    unfold Rdiv. rewrite Rmult_assoc, Rinv_l by lra. lra.
  - apply Rmult_le_reg_r with (Rsum (map w names)); [exact Hp|].
    unfold Rdiv. rewrite Rmult_assoc, Rinv_l by lra. lra.
Qed.
Lemma Rmean_const w v names c :
  Rsum (map w names) <> 0 -> (forall s, In s names -> v s = c) -> Rmean w v names = c.
Proof.
  intros Hp Hv. unfold Rmean.
  assert (E : Rsum (map (fun s => v s * w s) names) = c * Rsum (map w names)).
  { clear Hp. induction names as [|x l IH]; simpl; [ring|].
    rewrite IH by (intros s Hs; apply Hv; right; exact Hs).
    rewrite (Hv x (or_introl eq_refl)). ring. }
  rewrite E. field. exact Hp.
Qed.

(* ------------------------------------------------------------------ dv *)
Lemma vsub_fin x y z a b c :
  vsub (Fin x, Fin y, Fin z) (Fin a, Fin b, Fin c) = (Fin (x - a), Fin (y - b), Fin (z - c)).
Proof. unfold vsub, vbuild, vcomp. rewrite !fin_sub. reflexivity. Qed.

Lemma asub_anti x y : asub x y = aopp (asub y x) :> XR.
Proof.
  destruct x, y; try reflexivity; rewrite ?fin_sub, ?fin_opp; try (f_equal; ring).
Qed.

Lemma join_has_plus names : (1 < List.length names)%nat -> has_char plus (join "+" names) = true.
Proof.
  destruct names as [|a [|b l]]; simpl List.length; try lia. intros _.
  change (join "+" (a :: b :: l)) with (a ++ ("+" ++ join "+" (b :: l)))%string.
  rewrite !has_char_app. replace (has_char plus "+") with true by reflexivity.
  rewrite orb_true_r. reflexivity.
Qed.

Lemma dv_com k ions names s :
  usable ions names -> (1 < List.length names)%nat -> In s names ->
  dv (kx k) ions s (join "+" names) false =
  Ok (fun r => vsub (ion_v s r) (com_velocity (map (fun s => (s, (ion_v s, rho_fun k s))) (sort_str names)) r)).
Proof.
  intros U L Hs. unfold dv. destruct (String.eqb_spec s (join "+" names)) as [E|E].
  - exfalso. pose proof (join_has_plus names L) as Hp. rewrite <- E in Hp.
    destruct (us_legal _ _ U s Hs) as [Hf _]. congruence.
  - unfold velocity1. rewrite velocity_one by (apply U, Hs). simpl.
    rewrite (velocity_com k ions names U L). reflexivity.
Qed.

(* ------------------------------------------------------------ pdynamic *)
Definition Rpdv_const (k : consts R) : R := (1 / 2 * Urho k * (Uv * Uv)) / Upth.
Lemma pdv_const_fin k : pdv_const (kx k) = Fin (Rpdv_const k).
Proof.
  unfold pdv_const, Rpdv_const. rewrite fin_half, fin_urho, fin_uv, fin_upth. xfin.
  pose proof Upth_pos. rewrite fin_div by lra. reflexivity.
Qed.

(** the drift energy sum of the definition *)
Definition Rdrift (w vx vy vz : string -> R) (names : list string) : R :=
  Rsum (map (fun s => ((vx s - Rmean w vx names) * (vx s - Rmean w vx names)
                     + (vy s - Rmean w vy names) * (vy s - Rmean w vy names)
                     + (vz s - Rmean w vz names) * (vz s - Rmean w vz names)) * w s) names).

Lemma pdynamic_ok k ions names args :
  usable ions names -> (1 < List.length names)%nat ->
  (args = [PStr (join "+" names)] \/ args = map PStr names) ->
  pdynamic (kx k) ions args false =
  Ok (fun r => (sum_skip (map (fun c => (sumsq_skip (snd (snd c) r) * fst (snd c) r)%num)
                 (map (fun s => (s, (rho_fun k s, fun r => vsub (ion_v s r)
                    (com_velocity (map (fun s => (s, (ion_v s, rho_fun k s))) (sort_str names)) r))))
                  (sort_str names)))
               * pdv_const (kx k))%num).
Proof.
  intros U L Hargs. unfold pdynamic.
  assert (Hc : chk_species ions args = Ok (sort_str names)).
  { destruct Hargs as [->| ->]; [apply chk_join; apply U|apply chk_many; try apply U; lia]. }
  rewrite Hc. unfold bind at 1.
  assert (Hss : exists ss, all_strs args = Some ss /\ join "+" ss = join "+" names).
  { destruct Hargs as [->| ->].
    - exists [join "+" names]; split; reflexivity.
    - exists names. split; [apply all_strs_map|reflexivity]. }
  destruct Hss as (ss & Ess & Ej).
  assert (HP : per_species ions (fun s => bind (ion_rho (kx k) s) (fun rho =>
                  bind (dv (kx k) ions s (join "+" names) false) (fun d => Ok (rho, d)))) (sort_str names)
     = Ok (map (fun s => (s, (rho_fun k s, fun r => vsub (ion_v s r)
                    (com_velocity (map (fun s => (s, (ion_v s, rho_fun k s))) (sort_str names)) r)))) (sort_str names))).
  { apply (per_species_ok ions _ (fun s => (rho_fun k s, fun r => vsub (ion_v s r)
                    (com_velocity (map (fun s => (s, (ion_v s, rho_fun k s))) (sort_str names)) r)))); try apply U.
    intros s Hs. rewrite ion_rho_ok by (apply U, Hs). unfold bind at 1.
    rewrite (dv_com k ions names s U L Hs). reflexivity. }
  destruct (sort_two_up names L) as (x & y & l & E). rewrite E in *.
  cbv beta iota. cbn [negb]. rewrite Ess. cbv zeta. rewrite Ej. rewrite HP. reflexivity.
Qed.

Lemma pdynamic_val k ions names args r n vx vy vz :
  usable ions names -> (1 < List.length names)%nat ->
  (args = [PStr (join "+" names)] \/ args = map PStr names) ->
  (forall s, In s names -> r ("n", "", s) = Fin (n s)) ->
  (forall s, In s names -> has_v r s (vx s) (vy s) (vz s)) ->
  Rsum (map (fun s => n s * mmp k s) names) <> 0 ->
  plain (pdynamic (kx k) ions args false) r
    (Rdrift (fun s => n s * mmp k s) vx vy vz names * Rpdv_const k).
Proof.
  intros U L Ha Hn Hv Hnz. eexists; split; [exact (pdynamic_ok k ions names args U L Ha)|]. cbv beta.
  rewrite map_map. cbn [fst snd].
  rewrite (com_velocity_val k names r n vx vy vz Hn Hv Hnz).
  unfold Rdrift.
  rewrite (sum_skip_list names _ (fun s =>
      ((vx s - Rmean (fun s => n s * mmp k s) vx names) * (vx s - Rmean (fun s => n s * mmp k s) vx names)
     + (vy s - Rmean (fun s => n s * mmp k s) vy names) * (vy s - Rmean (fun s => n s * mmp k s) vy names)
     + (vz s - Rmean (fun s => n s * mmp k s) vz names) * (vz s - Rmean (fun s => n s * mmp k s) vz names))
     * (n s * mmp k s))).
  - rewrite pdv_const_fin. apply fin_mul.
  - intros s Hs. destruct (Hv s Hs) as (Ex & Ey & Ez). unfold ion_v. rewrite Ex, Ey, Ez, vsub_fin, sumsq_skip_fin.
    rewrite (rho_fun_fin k s r (n s) (Hn s Hs)). apply fin_mul.
Qed.

(** two species: the reduced-mass form *)
Lemma Rdrift_two w vx vy vz s0 s1 :
  w s0 + w s1 <> 0 ->
  Rdrift w vx vy vz [s0; s1] =
  w s0 * w s1 / (w s0 + w s1) *
  ((vx s0 - vx s1) * (vx s0 - vx s1) + (vy s0 - vy s1) * (vy s0 - vy s1) + (vz s0 - vz s1) * (vz s0 - vz s1)).
Proof.
  intros H. unfold Rdrift, Rmean. simpl. field. lra.
Qed.

(** Huygens-Steiner: internal drift energy = total minus centre-of-mass *)
Lemma drift_one w v names :
  Rsum (map w names) <> 0 ->
  Rsum (map (fun s => (v s - Rmean w v names) * (v s - Rmean w v names) * w s) names) =
  Rsum (map (fun s => v s * v s * w s) names)
  - Rmean w v names * Rmean w v names * Rsum (map w names).
Proof.
  intros H.
  assert (E : Rsum (map (fun s => v s * w s) names) = Rmean w v names * Rsum (map w names)).
  { unfold Rmean. field. exact H. }
  assert (G : forall m l, Rsum (map (fun s => (v s - m) * (v s - m) * w s) l)
     = Rsum (map (fun s => v s * v s * w s) l) - 2 * m * Rsum (map (fun s => v s * w s) l) + m * m * Rsum (map w l)).
  { intros m l. induction l as [|x l IH]; simpl; [ring|]. rewrite IH. ring. }
  rewrite G, E. ring.
Qed.

Lemma Rsum_zero_terms {A} (f : A -> R) l :
  (forall x, In x l -> 0 <= f x) -> Rsum (map f l) = 0 -> forall x, In x l -> f x = 0.
Proof.
  induction l as [|y l IH]; simpl; intros H E x Hx; [destruct Hx|].
  assert (0 <= Rsum (map f l)).
  { apply Rsum_nonneg. intros z Hz. apply in_map_iff in Hz as [q [<- Hq]]. apply H. right; exact Hq. }
  pose proof (H y (or_introl eq_refl)).
  destruct Hx as [<-|Hx]; [lra|]. apply IH; auto. lra.
Qed.

Lemma Rdrift_nonneg w vx vy vz names :
  (forall s, In s names -> 0 <= w s) -> 0 <= Rdrift w vx vy vz names.
Proof.
  intros Hw. unfold Rdrift. apply Rsum_nonneg. intros y Hy. apply in_map_iff in Hy as [s [<- Hs]].
  apply Rmult_le_pos; [|auto].
  pose proof (Rle_0_sqr (vx s - Rmean w vx names)). pose proof (Rle_0_sqr (vy s - Rmean w vy names)).
  pose proof (Rle_0_sqr (vz s - Rmean w vz names)). unfold Rsqr in *. lra.
Qed.

Lemma sq3_zero a b c : a * a + b * b + c * c = 0 -> a = 0 /\ b = 0 /\ c = 0.
Proof.
  intros H. assert (a * a = 0 /\ b * b = 0 /\ c * c = 0) as (Ha & Hb & Hc) by (repeat split; nra).
  repeat split; [apply Rmult_integral in Ha|apply Rmult_integral in Hb|apply Rmult_integral in Hc]; tauto.
Qed.

Lemma Rdrift_zero w vx vy vz names :
  (forall s, In s names -> 0 < w s) -> names <> [] ->
  (Rdrift w vx vy vz names = 0 <->
   forall s t, In s names -> In t names -> vx s = vx t /\ vy s = vy t /\ vz s = vz t).
Proof.
  intros Hw Hne. split.
  - intros E s t Hs Ht.
    assert (Z : forall s, In s names -> vx s = Rmean w vx names /\ vy s = Rmean w vy names /\ vz s = Rmean w vz names).
    { intros u Hu.
      assert (Z : (fun s => ((vx s - Rmean w vx names) * (vx s - Rmean w vx names)
                     + (vy s - Rmean w vy names) * (vy s - Rmean w vy names)
                     + (vz s - Rmean w vz names) * (vz s - Rmean w vz names)) * w s) u = 0).
      { refine (Rsum_zero_terms _ names _ E u Hu).
        intros q Hq. apply Rmult_le_pos; [|left; apply Hw; exact Hq].
        pose proof (Rle_0_sqr (vx q - Rmean w vx names)). pose proof (Rle_0_sqr (vy q - Rmean w vy names)).
        pose proof (Rle_0_sqr (vz q - Rmean w vz names)). unfold Rsqr in *. lra. }
      cbv beta in Z.
      pose proof (Hw u Hu). apply Rmult_integral in Z. destruct Z as [Z|Z]; [|lra].
      apply sq3_zero in Z as (Z1 & Z2 & Z3). repeat split; lra. }
    destruct (Z s Hs) as (a & b & c). destruct (Z t Ht) as (d & e & f). repeat split; congruence.
  - intros H. destruct names as [|s0 l]; [congruence|].
    assert (P : Rsum (map w (s0 :: l)) <> 0).
    { pose proof (Rsum_pos_cons w (s0 :: l) Hne Hw). lra. }
    unfold Rdrift.
    rewrite (Rmean_const w vx _ (vx s0) P) by (intros s Hs; apply (H s s0 Hs (or_introl eq_refl))).
    rewrite (Rmean_const w vy _ (vy s0) P) by (intros s Hs; apply (H s s0 Hs (or_introl eq_refl))).
    rewrite (Rmean_const w vz _ (vz s0) P) by (intros s Hs; apply (H s s0 Hs (or_introl eq_refl))).
    assert (G : forall m, (forall s, In s m -> In s (s0 :: l)) ->
      Rsum (map (fun s => ((vx s - vx s0) * (vx s - vx s0) + (vy s - vy s0) * (vy s - vy s0)
         + (vz s - vz s0) * (vz s - vz s0)) * w s) m) = 0).
    { induction m as [|x m IH]; intros Hm; simpl; [reflexivity|].
      destruct (H x s0 (Hm x (or_introl eq_refl)) (or_introl eq_refl)) as (-> & -> & ->).
      rewrite IH by (intros s Hs; apply Hm; right; exact Hs). ring. }
    apply G. auto.
Qed.
