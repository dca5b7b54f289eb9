(** C160 (clipping), C161 (colour limits), C162 (data above a contour), C163 (border lines), C164 (projections), C165 (contour
    levels), C166 (opacity), C167 (what a 1D histogram plot shows). *)
From Coq Require Import Reals List String Ascii Bool Arith ZArith Lra Lia Permutation Sorted.
From Verif Require Import Py Num Sort Activity ActivityThms FitFuncsThms Hist HistThms HistMoreThms Spiral SpiralThms Icme HistPlot OrbitsThms.
Import ListNotations.
Open Scope list_scope.
Open Scope R_scope.

(* ------------------------------------------------------------------ quantiles *)
Lemma sorted_ordered l : ordered (sort_by Rleb l).
Proof. apply SS_nth_le, sort_by_sorted; [apply Rleb_total|apply Rleb_trans]. Qed.
Lemma tally_perm {X} (p : X -> bool) a b : Permutation a b -> tally p a = tally p b.
Proof.
  intro Q. unfold tally. induction Q as [|x a b Q IH|x y a|a b c Q1 IH1 Q2 IH2]; cbn [filter]; [reflexivity|destruct (p x); cbn [List.length]; rewrite IH; reflexivity|destruct (p x), (p y); reflexivity|congruence].
Qed.
Lemma qat_low s n i : ordered s -> (0 < List.length s)%nat -> (0 < n)%nat -> (i <= n)%nat -> nth (Nat.div ((List.length s - 1) * i) n) s 0 <= qat s n i.
Proof.
  intros O PL Pn Li. unfold qat. cbv zeta. set (h := ((List.length s - 1) * i)%nat). set (k := Nat.div h n).
  assert (Kb : (k < List.length s)%nat) by (apply div_small_index; lia).
  assert (St : nth k s 0 <= nth (S k) s (nth k s 0)).
  { destruct (le_lt_dec (List.length s) (S k)) as [G|G]; [rewrite (nth_overflow s (nth k s 0)) by exact G; lra|]. rewrite (nth_indep s (nth k s 0) 0) by exact G. apply O. lia. }
  assert (Pn' : 0 < INR n) by (apply lt_0_INR; lia). assert (F : 0 <= INR (h mod n) / INR n) by (apply Rmult_le_pos; [apply pos_INR|left; apply Rinv_0_lt_compat, Pn']).
  assert (0 <= (nth (S k) s (nth k s 0) - nth k s 0) * (INR (h mod n) / INR n)) by (apply Rmult_le_pos; lra). lra.
Qed.
Lemma qat_high s n i : ordered s -> (0 < List.length s)%nat -> (0 < n)%nat -> (i <= n)%nat -> (S (Nat.div ((List.length s - 1) * i) n) < List.length s)%nat ->
  qat s n i <= nth (S (Nat.div ((List.length s - 1) * i) n)) s 0.
Proof.
  intros O PL Pn Li G. unfold qat. cbv zeta. set (h := ((List.length s - 1) * i)%nat) in *. set (k := Nat.div h n) in *.
  rewrite (nth_indep s (nth k s 0) 0 G). assert (Sk : nth k s 0 <= nth (S k) s 0) by (apply O; lia).
  assert (Pn' : 0 < INR n) by (apply lt_0_INR; lia). assert (Nat.modulo h n < n)%nat by (apply Nat.mod_upper_bound; lia).
  assert (F1 : INR (h mod n) / INR n <= 1) by (apply (Rmult_le_reg_r (INR n)); [exact Pn'|]; unfold Rdiv; rewrite Rmult_assoc, Rinv_l, Rmult_1_r, Rmult_1_l by lra; apply le_INR; lia).
  assert ((nth (S k) s 0 - nth k s 0) * (INR (h mod n) / INR n) <= (nth (S k) s 0 - nth k s 0) * 1) by (apply Rmult_le_compat_l; lra). lra.
Qed.
Lemma tally_none {X} (p : X -> bool) l : (forall x, In x l -> p x = false) -> tally p l = 0%nat.
Proof. intro H. unfold tally. induction l as [|x l IH]; [reflexivity|]. cbn [filter]. rewrite (H x (or_introl eq_refl)). apply IH. intros y I. apply H. right. exact I. Qed.
Lemma tally_le {X} (p : X -> bool) l : (tally p l <= List.length l)%nat.
Proof. apply filter_shorter. Qed.
Lemma nth_skip (k j : nat) (s : list R) : (k + j < List.length s)%nat -> nth j (skipn k s) 0 = nth (k + j) s 0.
Proof. intro L. rewrite <- (firstn_skipn k s) at 2. rewrite app_nth2; rewrite firstn_length_le by lia; [f_equal; lia|lia]. Qed.
Lemma nth_first (k j : nat) (s : list R) : (j < k)%nat -> (k <= List.length s)%nat -> nth j (firstn k s) 0 = nth j s 0.
Proof. intros L K. rewrite <- (firstn_skipn k s) at 2. rewrite app_nth1; [reflexivity|rewrite firstn_length_le by lia; exact L]. Qed.
(** at most (n-1) i/n data plus one lie below the i/n quantile, and correspondingly above *)
Lemma few_below l i n : l <> [] -> (0 < n)%nat -> (i <= n)%nat -> (tally (fun v => Rltb v (rquantile l i n)) l <= Nat.div ((List.length l - 1) * i) n + 1)%nat.
Proof.
  intros NE Pn Li. unfold rquantile. set (s := sort_by Rleb l). rewrite (tally_perm _ l s) by (apply Permutation_sym, sort_by_perm).
  assert (LS : List.length s = List.length l) by apply sort_by_length. rewrite <- LS. assert (O : ordered s) by apply sorted_ordered.
  assert (PL : (0 < List.length s)%nat) by (rewrite LS; destruct l; [congruence|cbn; lia]).
  set (k := Nat.div ((List.length s - 1) * i) n). destruct (le_lt_dec (List.length s) (S k)) as [G|G]; [eapply Nat.le_trans; [apply tally_le|]; lia|].
  pose proof (qat_high s n i O PL Pn Li G) as Q. fold k in Q.
  rewrite <- (firstn_skipn (S k) s) at 1. rewrite tally_app. rewrite (tally_none _ (skipn (S k) s)).
  - eapply Nat.le_trans; [apply Nat.add_le_mono_r, tally_le|]. rewrite firstn_length. lia.
  - intros x I. destruct (In_nth _ _ 0 I) as [j [Lj <-]]. rewrite skipn_length in Lj. rewrite nth_skip by lia. apply Rltb_false.
    assert (nth (S k) s 0 <= nth (S k + j) s 0) by (apply O; lia). lra.
Qed.
Lemma few_above l i n : l <> [] -> (0 < n)%nat -> (i <= n)%nat -> (tally (fun v => Rltb (rquantile l i n) v) l <= List.length l - 1 - Nat.div ((List.length l - 1) * i) n)%nat.
Proof.
  intros NE Pn Li. unfold rquantile. set (s := sort_by Rleb l). rewrite (tally_perm _ l s) by (apply Permutation_sym, sort_by_perm).
  assert (LS : List.length s = List.length l) by apply sort_by_length. rewrite <- LS. assert (O : ordered s) by apply sorted_ordered.
  assert (PL : (0 < List.length s)%nat) by (rewrite LS; destruct l; [congruence|cbn; lia]).
  set (k := Nat.div ((List.length s - 1) * i) n). assert (Kb : (k < List.length s)%nat) by (apply div_small_index; lia).
  pose proof (qat_low s n i O PL Pn Li) as Q. fold k in Q.
  rewrite <- (firstn_skipn (S k) s) at 1. rewrite tally_app. rewrite (tally_none _ (firstn (S k) s)).
  - eapply Nat.le_trans; [apply tally_le|]. rewrite skipn_length. lia.
  - intros x I. destruct (In_nth _ _ 0 I) as [j [Lj <-]]. rewrite firstn_length_le in Lj by lia. rewrite nth_first by lia. apply Rltb_false.
    assert (nth j s 0 <= nth k s 0) by (apply O; lia). lra.
Qed.
Lemma clean_present l : filter notnan (map cell l) = map Fin (present l).
Proof. induction l as [|o l IH]; [reflexivity|]. cbn [map filter]. rewrite notnan_cell, present_cons. destruct o; cbn [app map]; rewrite IH; reflexivity. Qed.
Lemma quantile_cells l i n : present l <> [] -> (0 < n)%nat -> (i <= n)%nat -> series_quantile (map cell l) i n = Fin (rquantile (present l) i n).
Proof.
  intros NE Pn Li. unfold series_quantile. rewrite clean_present. destruct (map Fin (present l)) as [|x r] eqn:E; [destruct (present l); [congruence|discriminate]|].
  rewrite <- E. apply (quantile_real (present l) i n); assumption.
Qed.
Lemma rquantile_mono l n i j : l <> [] -> (0 < n)%nat -> (i <= j <= n)%nat -> rquantile l i n <= rquantile l j n.
Proof. intros NE Pn L. apply qat_mono; [apply sorted_ordered|rewrite sort_by_length; destruct l; [congruence|cbn; lia]|exact Pn|exact L]. Qed.

(* ------------------------------------------------------------------ C160: clipping *)
Lemma tt_val : ten_thousand = 10000%nat. Proof. reflexivity. Qed.
Lemma tt_pos : (0 < ten_thousand)%nat. Proof. apply Nat.ltb_lt. vm_compute. reflexivity. Qed.
#[local] Opaque ten_thousand.
(** Clipping moves values outside two quantiles to them and leaves the others (and missing values) alone; at most one value in
    ten thousand, plus one, is moved at either end. *)
Theorem C160_clipping : forall data b, present data <> [] -> exists lo up, lo <= up /\
  lo = rquantile (present data) 1 10000 /\ up = rquantile (present data) 9999 10000
  /\ clip_data (map cell data) (ClipFlag b) = Ok (map (fun o => cell (option_map (fun v => Rmin up (Rmax lo v)) o)) data)
  /\ (tally (fun v => Rltb v lo) (present data) <= Nat.div (List.length (present data) - 1) 10000 + 1)%nat
  /\ (tally (fun v => Rltb up v) (present data) <= Nat.div (List.length (present data) - 1) 10000 + 1)%nat.
Proof.
  intros data b NE. unfold clip_data. cbv zeta. rewrite <- tt_val. replace 9999%nat with (ten_thousand - 1)%nat by (vm_compute; reflexivity).
  pose proof tt_pos as TP. assert (T2 : (2 <= ten_thousand)%nat) by (apply Nat.leb_le; vm_compute; reflexivity).
  generalize dependent ten_thousand. intros N TP T2.
  exists (rquantile (present data) 1 N), (rquantile (present data) (N - 1) N).
  assert (M : rquantile (present data) 1 N <= rquantile (present data) (N - 1) N) by (apply rquantile_mono; [exact NE|exact TP|lia]).
  split; [exact M|]. split; [reflexivity|]. split; [reflexivity|]. split; [|split].
  - rewrite !quantile_cells by (try exact NE; lia). f_equal. rewrite map_map. apply map_ext. intros [v|]; cbn [option_map cell]; unfold clip_value.
    + rewrite !fin_ltb. unfold Rmin, Rmax. destruct (Rltb v (rquantile (present data) 1 N)) eqn:E1; [apply (proj1 (Rltb_true _ _)) in E1|apply (proj1 (Rltb_false _ _)) in E1].
      * destruct (Rle_dec (rquantile (present data) 1 N) v); [lra|]. destruct (Rle_dec (rquantile (present data) (N - 1) N) (rquantile (present data) 1 N)); [f_equal; lra|reflexivity].
      * destruct (Rle_dec (rquantile (present data) 1 N) v); [|lra]. destruct (Rltb (rquantile (present data) (N - 1) N) v) eqn:E2; [apply (proj1 (Rltb_true _ _)) in E2|apply (proj1 (Rltb_false _ _)) in E2].
        { destruct (Rle_dec (rquantile (present data) (N - 1) N) v); [reflexivity|lra]. }
        { destruct (Rle_dec (rquantile (present data) (N - 1) N) v); [f_equal; lra|reflexivity]. }
    + reflexivity.
  - rewrite <- (Nat.mul_1_r (List.length (present data) - 1)) at 1. apply few_below; [exact NE|exact TP|lia].
  - eapply Nat.le_trans; [apply few_above; [exact NE|exact TP|lia]|]. set (m := (List.length (present data) - 1)%nat).
    pose proof (Nat.div_mod (m * (N - 1)) N ltac:(lia)). pose proof (Nat.mod_upper_bound (m * (N - 1)) N ltac:(lia)). pose proof (Nat.div_mod m N ltac:(lia)). pose proof (Nat.mod_upper_bound m N ltac:(lia)).
    assert (E : (N * (m - m * (N - 1) / N) < N * (m / N + 2))%nat) by nia. apply Nat.mul_lt_mono_pos_l in E; lia.
Qed.

(** Hist1D and Hist2D: nothing is clipped unless asked for; a flag clips both ends. *)
Theorem C160_off : forall (data : list XR) c, c = ClipFlag false \/ c = ClipString "" -> cut_values1 data c = Ok data /\ cut_values2 data c = Ok data.
Proof. intros data c [->| ->]; split; reflexivity. Qed.
(** 'lower' and 'upper' clip one side according to the code: in Hist1D they fail, in Hist2D they clip both sides. *)
Theorem C160_one_sided_refuted : forall (data : list XR) s c rest, s = String c rest -> (c = "l" \/ c = "L" \/ c = "u" \/ c = "U")%char ->
  cut_values1 data (ClipString s) = Err AttributeError /\ cut_values2 data (ClipString s) = clip_data data (ClipFlag true).
Proof. intros data s c rest -> H. split; [|reflexivity]. unfold cut_values1, clip_data, first_lower, truthy. destruct H as [->|[->|[->| ->]]]; reflexivity. Qed.
Example C160_ex : present [Some 1; None; Some 3] <> [] /\ rquantile [1; 3] 1 2 = 2.
Proof.
  split; [discriminate|]. unfold rquantile. assert (E : sort_by Rleb [1; 3] = [1; 3]) by (cbn; replace (Rleb 1 3) with true by (symmetry; apply Rleb_true; lra); reflexivity). rewrite E.
  unfold qat. cbn. lra.
Qed.

(* ------------------------------------------------------------------ C161: colour limits *)
(** Limits of the caller are kept; missing ones become the 1% and 99% quantiles of z, in order. *)
Theorem C161_limits_partial : forall norm given n (data : list (XR * XR * R)), data <> [] -> norm <> N2Col -> norm <> N2Row ->
  (given = Some n \/ given = None /\ default_norm norm = Some n) ->
  let zs := map snd data in
  exists n' lo hi, plot_norm norm true given (map (fun r => (fst r, Fin (snd r))) data) = Ok (Some n') /\ vmin n' = Some lo /\ vmax n' = Some hi
  /\ (forall v, vmin n = Some v -> lo = v) /\ (forall v, vmax n = Some v -> hi = v)
  /\ (vmin n = None -> lo = Fin (rquantile zs 1 100)) /\ (vmax n = None -> hi = Fin (rquantile zs 99 100)) /\ rquantile zs 1 100 <= rquantile zs 99 100 /\ clips n' = true.
Proof.
  intros norm given n data NE NC NR G zs.
  assert (EZ : map snd (map (fun r : XR * XR * R => (fst r, Fin (snd r))) data) = map cell (map Some zs)) by (unfold zs; rewrite !map_map; reflexivity).
  assert (PZ : present (map Some zs) = zs) by (clear; induction zs as [|z zs IH]; [reflexivity|]; cbn [map]; rewrite present_cons, IH; reflexivity).
  assert (NZ : zs <> []) by (unfold zs; destruct data; [congruence|discriminate]).
  assert (L : limit_color_norm norm (map snd (map (fun r : XR * XR * R => (fst r, Fin (snd r))) data)) (Some n)
    = Ok (Some (mkNorm (Some (match vmin n with Some v => v | None => Fin (rquantile zs 1 100) end)) (Some (match vmax n with Some v => v | None => Fin (rquantile zs 99 100) end)) true))).
  { rewrite EZ. unfold limit_color_norm. rewrite !quantile_cells, !PZ by (rewrite ?PZ; try exact NZ; lia). destruct norm; congruence. }
  exists (mkNorm (Some (match vmin n with Some v => v | None => Fin (rquantile zs 1 100) end)) (Some (match vmax n with Some v => v | None => Fin (rquantile zs 99 100) end)) true).
  eexists _, _. split; [unfold plot_norm; destruct G as [->|[-> ->]]; exact L|]. split; [reflexivity|]. split; [reflexivity|].
  split; [intros v ->; reflexivity|]. split; [intros v ->; reflexivity|]. split; [intros ->; reflexivity|]. split; [intros ->; reflexivity|].
  split; [apply rquantile_mono; [exact NZ|lia|lia]|reflexivity].
Qed.
(** Plots normalised by column or row keep their norm. *)
Theorem C161_fractions : forall norm limit given (data : list (XR * XR * XR)), norm = N2Col \/ norm = N2Row -> 
  plot_norm norm limit given data = Ok (Some (match given with Some g => g | None => mkNorm (Some (Fin 0)) (Some (Fin 1)) true end)).
Proof. intros norm limit given data [->| ->]; unfold plot_norm, default_norm; rewrite fin_a0, fin_a1; destruct limit, given; reflexivity. Qed.
(** Plots of plain values and of fractions of the total have no norm of their own, and limiting their colours fails. *)
Theorem C161_no_norm_refuted : forall (data : list (XR * XR * XR)), plot_norm N2None true None data = Err AttributeError /\ plot_norm N2Total true None data = Err AttributeError.
Proof. split; reflexivity. Qed.
(** The limits are those of the weights, not of what is shown: for counts, densities and so on of unweighted data, both limits are 1. *)
Theorem C161_counts_refuted : forall norm (data : list (XR * XR * XR)), unweighted data -> data <> [] -> norm <> N2Col -> norm <> N2Row ->
  exists n, plot_norm norm true (Some (mkNorm None None true)) data = Ok (Some n) /\ vmin n = Some (Fin 1) /\ vmax n = Some (Fin 1).
Proof.
  intros norm data U NE NC NR.
  assert (Q : forall i, (i <= 100)%nat -> rquantile (map (fun _ => 1) data) i 100 = 1).
  { intros i Li. assert (NL : map (fun _ : XR * XR * XR => 1%R) data <> []) by (destruct data; [congruence|discriminate]).
    assert (ES : sort_by Rleb (map (fun _ : XR * XR * XR => 1%R) data) = map (fun _ => 1) data).
    { clear. induction data as [|r data IH]; [reflexivity|]. cbn [map sort_by]. rewrite IH. destruct data; cbn [map insert_by]; [reflexivity|]. replace (Rleb 1 1) with true by (symmetry; apply Rleb_true; lra). reflexivity. }
    unfold rquantile. rewrite ES. unfold qat. cbv zeta. rewrite map_length.
    assert (E1 : forall k d, (d = 1 \/ (k < List.length data)%nat) -> nth k (map (fun _ : XR * XR * XR => 1%R) data) d = 1).
    { clear. intros k d H. destruct (le_lt_dec (List.length data) k) as [G|G]; [rewrite nth_overflow by (rewrite map_length; exact G); destruct H; [assumption|lia]|].
      revert k G H. induction data as [|r data IH]; intros k G H; [cbn in G; lia|]. destruct k; [reflexivity|]. cbn [map nth]. apply IH; cbn in G; [lia|right; lia]. }
    assert (K : (Nat.div ((List.length data - 1) * i) 100 < List.length data)%nat) by (apply div_small_index; [lia|lia|destruct data; [congruence|cbn; lia]]).
    rewrite (E1 _ 0 (or_intror K)). rewrite (E1 _ 1 (or_introl eq_refl)). ring. }
  assert (EZ : map snd data = map cell (map Some (map (fun _ => 1) data))) by (clear - U; induction data as [|r data IH]; [reflexivity|]; cbn [map cell]; rewrite (U r (or_introl eq_refl)), IH; [reflexivity|intros q I; apply U; right; exact I]).
  assert (PZ : present (map Some (map (fun _ => 1) data)) = map (fun _ => 1) data) by (generalize (map (fun _ => 1) data); clear; intro zs; induction zs as [|z zs IH]; [reflexivity|]; cbn [map]; rewrite present_cons, IH; reflexivity).
  assert (NL : map (fun _ : XR * XR * XR => 1%R) data <> []) by (destruct data; [congruence|discriminate]).
  exists (mkNorm (Some (Fin 1)) (Some (Fin 1)) true). split; [|split; reflexivity]. unfold plot_norm, limit_color_norm. rewrite EZ, !quantile_cells, !PZ by (rewrite ?PZ; try exact NL; lia).
  rewrite !Q by lia. destruct norm; try congruence; reflexivity.
Qed.
Example C161_ex : unweighted [(Fin 1, Fin 1, Fin 1); (Fin 2, Fin 1, Fin 1)] /\ default_norm (T := XR) N2Density = Some (mkNorm None None true).
Proof. split; [intros r [<-|[<-|[]]]; reflexivity|reflexivity]. Qed.

(* ------------------------------------------------------------------ C162: data above a contour *)
Definition shown (t : list (k2 * XR)) (level : XR) (i j : nat) : Prop := aleb level (agg2_value t i j) = true.
(** a datum lies in column i and, in y, between the lowest and the highest bin of the column that reach the level *)
Definition between_reaching (ex ey : list R) (t : list (k2 * XR)) (level : XR) (i : nat) (r : XR * XR * XR) : Prop :=
  bin ex i (fst (fst r)) = true /\ exists j0 j1 y, (j0 < nbin ey)%nat /\ (j1 < nbin ey)%nat /\ shown t level i j0 /\ shown t level i j1
    /\ snd (fst r) = Fin y /\ nth j0 ey 0 < y <= nth (S j1) ey 0.
Lemma interval_at e i : (i < nbin e)%nat -> nth i (intervals (map Fin e)) (anan, anan) = (Fin (nth i e 0), Fin (nth (S i) e 0)).
Proof.
  intro L. rewrite intervals_nth. rewrite (nth_indep _ _ ((fun i => (Fin (nth i e 0), Fin (nth (S i) e 0))) 0%nat)) by (rewrite map_length, seq_length; exact L).
  etransitivity; [exact (map_nth (fun i => (Fin (nth i e 0), Fin (nth (S i) e 0))) (seq 0 (nbin e)) 0%nat i)|]. rewrite seq_nth by exact L. reflexivity.
Qed.
Lemma forall2_map {X Y} (P : X -> Y -> Prop) f l : (forall x, P x (f x)) -> Forall2 P l (map f l).
Proof. intro H. induction l as [|x l IH]; constructor; [apply H|exact IH]. Qed.
Lemma forall2_weaken {X Y} (P Q : X -> Y -> Prop) l m : (forall x y, P x y -> Q x y) -> Forall2 P l m -> Forall2 Q l m.
Proof. intros H F. induction F; constructor; auto. Qed.
Lemma last_cons (rest : list nat) x j0 : last (x :: rest) j0 = last rest x.
Proof.
  assert (D : forall r (y : nat) d d', last (y :: r) d = last (y :: r) d') by (induction r as [|z r IH]; intros y d d'; [reflexivity|]; change (last (z :: r) d = last (z :: r) d'); apply IH).
  destruct rest as [|y r]; [reflexivity|]. change (last (y :: r) j0 = last (y :: r) x). apply D.
Qed.
Lemma filter_seq_ends p a n j0 rest : filter p (seq a n) = j0 :: rest -> (forall j, In j (j0 :: rest) -> (j0 <= j <= last rest j0)%nat) /\ In (last rest j0) (j0 :: rest).
Proof.
  assert (SRT : forall n a, StronglySorted lt (filter p (seq a n))).
  { clear. induction n as [|n IH]; intro a; [constructor|]. cbn [seq filter]. destruct (p a); [|apply IH]. constructor; [apply IH|]. apply Forall_forall. intros x I. apply filter_In in I as [I _]. apply in_seq in I. lia. }
  intro E. pose proof (SRT n a) as Q. rewrite E in Q. clear E SRT. revert j0 Q. induction rest as [|x rest IH]; intros j0 Q.
  - split; [intros j [<-|[]]; cbn; lia|left; reflexivity].
  - inversion Q as [|? ? Q' F]. subst. inversion F as [|? ? Hx _]; subst. destruct (IH x Q') as [B L].
    rewrite last_cons.
    split; [|right; exact L]. intros j [<-|I]; [|specialize (B j I); lia]. specialize (B x (or_introl eq_refl)). lia.
Qed.
Lemma shape2 lx ly norm clim alim bx by_ f data : exists g, agg2 lx ly norm clim alim bx by_ f data = gtab k2 (is_observed (T := XR) k2 k2_eqb (rows2 bx by_ data)) g (bins2 bx by_).
Proof.
  unfold agg2. rewrite runner_gtab. match goal with |- context [axis_normalizer2 lx ly norm bx by_ (gtab k2 ?p ?g ?keys)] => destruct (norm2_gtab lx ly norm bx by_ p g keys) as [g' ->] end.
  rewrite mask_gtab. eauto.
Qed.
Section C162.
  Variables (lx ly : bool) (norm : axnorm2) (clim alim : option XR * option XR) (ex ey : list R) (data : list (XR * XR * XR)) (level : XR).
  Hypothesis Ox : ordered ex.
  Hypothesis Oy : ordered ey.
  Let t := agg2 lx ly norm clim alim (map Fin ex) (map Fin ey) FDefault data.
  Lemma column_iff i : In i (columns_of t (List.length (intervals (map Fin ex)))) <-> (i < nbin ex)%nat /\ exists r j, In r data /\ (j < nbin ey)%nat /\ cell2 ex ey i j r = true.
  Proof.
    unfold columns_of. rewrite filter_In, intervals_nth, map_length, seq_length, in_seq, existsb_exists. unfold t. destruct (shape2 lx ly norm clim alim (map Fin ex) (map Fin ey) FDefault data) as [g ->]. unfold gtab. split.
    - intros [L ([k v] & I & E)]. cbn [fst] in E. apply Nat.eqb_eq in E. split; [lia|]. apply in_map_iff in I as (q & Q & I). injection Q as <- _. apply filter_In in I as [I O]. unfold is_observed in O.
      apply existsb_exists in O as (r & Ir & C). unfold rows2 in Ir. apply in_map_iff in Ir as (d & <- & Id). cbn [fst] in C. destruct (cut2 (map Fin ex) (map Fin ey) d) as [q'|] eqn:Eq; [|discriminate].
      apply k2_eqb_spec in C. subst q'. destruct q as [a b]. cbn [fst] in E. subst a. apply cut2_some in Eq; [|exact Ox|exact Oy]. exists d, b. tauto.
    - intros [L (r & j & Ir & Lj & C)]. split; [lia|]. exists ((i, j), g (i, j)). split; [|apply Nat.eqb_refl]. apply in_map_iff. exists (i, j). split; [reflexivity|]. apply filter_In.
      split; [rewrite bins2_grid; apply in_grid; auto|]. unfold is_observed. apply existsb_exists. exists (cut2 (map Fin ex) (map Fin ey) r, snd r). split; [unfold rows2; apply in_map_iff; exists r; auto|].
      cbn [fst]. replace (cut2 (map Fin ex) (map Fin ey) r) with (Some (i, j)) by (symmetry; apply cut2_some; auto). apply k2_eqb_spec. reflexivity.
  Qed.
  Lemma shown_column i j : shown t level i j -> (i < nbin ex)%nat -> In i (columns_of t (List.length (intervals (map Fin ex)))).
  Proof.
    intros S L. unfold columns_of. apply filter_In. rewrite intervals_nth, map_length, seq_length. split; [apply in_seq; lia|]. apply existsb_exists. unfold shown, t in *.
    destruct (shape2 lx ly norm clim alim (map Fin ex) (map Fin ey) FDefault data) as [g E]. rewrite E in *. unfold agg2_value in S.
    assert (FN : aleb level NaN = false) by (destruct level; reflexivity).
    apply (in_gtab_keys k2 k2_eqb k2_eqb_spec (aleb level)) in S; [|exact FN]. apply in_map_iff in S as ([k v] & K & I). apply filter_In in I as [I _]. cbn [fst] in K. subst k. exists ((i, j), v). split; [exact I|apply Nat.eqb_refl].
  Qed.
  Definition reach i := filter (fun j => aleb level (agg2_value t i j)) (seq 0 (nbin ey)).
  Lemma box_spec i : (i < nbin ex)%nat -> (exists j, (j < nbin ey)%nat /\ shown t level i j) ->
    exists B, contour_box level (map Fin ex) (map Fin ey) t i = Ok (i, B) /\ forall r : XR * XR * XR, in_box B (fst (fst r)) (snd (fst r)) = true <-> between_reaching ex ey t level i r.
  Proof.
    intros Li (j & Lj & Sj). unfold contour_box. rewrite bins_fin. fold (reach i).
    assert (IR : forall j, In j (reach i) <-> (j < nbin ey)%nat /\ shown t level i j) by (intro k; unfold reach; rewrite filter_In, in_seq; unfold shown; split; intros [? ?]; split; auto; lia).
    destruct (reach i) as [|j0 rest] eqn:ER; [destruct (proj2 (IR j) (conj Lj Sj))|].
    destruct (filter_seq_ends _ _ _ _ _ ER) as [B L]. set (j1 := last rest j0) in *.
    assert (L0 := proj1 (IR j0) (or_introl eq_refl)). assert (L1 := proj1 (IR j1) L).
    eexists. split; [reflexivity|]. intro r. rewrite !interval_at by tauto. unfold in_box. cbn [fst snd]. rewrite !in_bin_fin, andb_true_iff. unfold between_reaching, bin. rewrite (inb_true _ _ (snd (fst r))). split.
    - intros [Bx (y & Ey & Hy)]. split; [exact Bx|]. exists j0, j1, y. tauto.
    - intros [Bx (a & b & y & La & Lb & Sa & Sb & Ey & Hy)]. split; [exact Bx|]. exists y. split; [exact Ey|].
      assert (Ba := B a (proj2 (IR a) (conj La Sa))). assert (Bb := B b (proj2 (IR b) (conj Lb Sb))).
      assert (nth j0 ey 0 <= nth a ey 0) by (apply Oy; unfold nbin in *; lia). assert (nth (S b) ey 0 <= nth (S j1) ey 0) by (apply Oy; unfold nbin in *; lia). lra.
  Qed.
  (** Provided that every column with data reaches the level: a datum is labelled with its column exactly when it lies between the
      lowest and the highest bin of that column that reach the level. *)
  Theorem C162_labels_partial : (forall r i j, In r data -> (i < nbin ex)%nat -> (j < nbin ey)%nat -> cell2 ex ey i j r = true -> exists j', (j' < nbin ey)%nat /\ shown t level i j') ->
    exists labels, above_contour level (map Fin ex) (map Fin ey) t data = Ok labels
    /\ Forall2 (fun r lab => forall i, lab = Some i <-> (i < nbin ex)%nat /\ between_reaching ex ey t level i r) data labels.
  Proof.
    intro H. unfold above_contour. set (cols := columns_of t (List.length (intervals (map Fin ex)))).
    assert (HB : forall i, In i cols -> exists B, contour_box level (map Fin ex) (map Fin ey) t i = Ok (i, B) /\ forall r : XR * XR * XR, in_box B (fst (fst r)) (snd (fst r)) = true <-> between_reaching ex ey t level i r).
    { intros i I. apply column_iff in I as [Li (r & j & Ir & Lj & C)]. apply box_spec; [exact Li|]. exact (H r i j Ir Li Lj C). }
    assert (BX : exists boxes, mapM (contour_box level (map Fin ex) (map Fin ey) t) cols = Ok boxes /\ Forall2 (fun i ib => fst ib = i /\ forall r : XR * XR * XR, in_box (snd ib) (fst (fst r)) (snd (fst r)) = true <-> between_reaching ex ey t level i r) cols boxes).
    { clear - HB. induction cols as [|i cols IH]; [exists []; split; [reflexivity|constructor]|]. destruct IH as (bs & E & F); [intros k I; apply HB; right; exact I|].
      destruct (HB i (or_introl eq_refl)) as (B & EB & SB). exists ((i, B) :: bs). split; [cbn [mapM]; rewrite EB; cbn [bind]; rewrite E; reflexivity|]. constructor; [split; [reflexivity|exact SB]|exact F]. }
    destruct BX as (boxes & EM & F2). rewrite EM. cbn [bind]. eexists. split; [reflexivity|].
    assert (IN : forall ib, In ib boxes -> In (fst ib) cols /\ forall r : XR * XR * XR, in_box (snd ib) (fst (fst r)) (snd (fst r)) = true <-> between_reaching ex ey t level (fst ib) r).
    { clear - F2. induction F2 as [|i ib cols boxes [E S] F IH]; [intros ? []|]. intros b [<-|I]; [split; [left; auto|rewrite E; exact S]|]. destruct (IH b I) as [I' S']. split; [right; exact I'|exact S']. }
    assert (EX : forall i, In i cols -> exists B, In (i, B) boxes).
    { clear - F2. induction F2 as [|i ib cols boxes [E S] F IH]; [intros ? []|]. intros k [<-|I]; [exists (snd ib); left; destruct ib; cbn in *; congruence|]. destruct (IH k I) as [B IB]. exists B. right. exact IB. }
    clear EM F2.
    assert (ONE : forall r : XR * XR * XR, forall i, option_map fst (find (fun ib => in_box (snd ib) (fst (fst r)) (snd (fst r))) (rev boxes)) = Some i <-> (i < nbin ex)%nat /\ between_reaching ex ey t level i r).
    { intros r i. split.
      - intro E. destruct (find _ (rev boxes)) as [[k B]|] eqn:Fd; [|discriminate]. cbn in E. injection E as ->. apply find_some in Fd as [I P]. rewrite <- in_rev in I. destruct (IN _ I) as [Ic SP]. cbn [fst snd] in *.
        apply column_iff in Ic. split; [tauto|]. apply SP, P.
      - intros [Li Br]. assert (Ic : In i cols) by (destruct Br as [_ (j0 & j1 & y & _ & _ & S0 & _)]; apply (shown_column i j0 S0 Li)). destruct (EX i Ic) as [B IB]. destruct (IN _ IB) as [_ SP]. cbn [fst snd] in SP.
        destruct (find (fun ib => in_box (snd ib) (fst (fst r)) (snd (fst r))) (rev boxes)) as [[k B']|] eqn:Fd.
        + apply find_some in Fd as [I P]. rewrite <- in_rev in I. destruct (IN _ I) as [Ic' SP']. cbn [fst snd] in *. apply SP' in P. cbn. f_equal. apply column_iff in Ic'. apply (bin_unique ex k i (fst (fst r)) Ox); [tauto|exact Li|apply P|apply Br].
        + exfalso. pose proof (find_none _ _ Fd (i, B)) as N. rewrite <- in_rev in N. specialize (N IB). cbn [snd] in N. rewrite (proj2 (SP r) Br) in N. discriminate. }
    apply forall2_map. exact ONE.
  Qed.
End C162.
(** The documented result: a datum is labelled with the column of its bin exactly when that bin reaches the level. *)
Definition in_reaching_bin (ex ey : list R) (t : list (k2 * XR)) (level : XR) (i : nat) (r : XR * XR * XR) : Prop :=
  exists j, (j < nbin ey)%nat /\ cell2 ex ey i j r = true /\ shown t level i j.
Lemma reaching_between ex ey t level i r : in_reaching_bin ex ey t level i r -> between_reaching ex ey t level i r.
Proof. intros (j & L & C & S). unfold cell2 in C. apply andb_true_iff in C as [Cx Cy]. split; [exact Cx|]. unfold bin in Cy. apply inb_true in Cy as (y & Ey & Hy). exists j, j, y. tauto. Qed.
(** This holds if no column dips below the level between two bins that reach it. *)
Theorem C162_no_gaps_partial : forall lx ly norm clim alim ex ey data level, ordered ex -> ordered ey ->
  let t := agg2 lx ly norm clim alim (map Fin ex) (map Fin ey) FDefault data in
  (forall r i j, In r data -> (i < nbin ex)%nat -> (j < nbin ey)%nat -> cell2 ex ey i j r = true -> exists j', (j' < nbin ey)%nat /\ shown t level i j') ->
  (forall i j0 j j1, (i < nbin ex)%nat -> (j0 <= j <= j1)%nat -> (j1 < nbin ey)%nat -> shown t level i j0 -> shown t level i j1 -> shown t level i j) ->
  exists labels, above_contour level (map Fin ex) (map Fin ey) t data = Ok labels
  /\ Forall2 (fun r lab => forall i, lab = Some i <-> (i < nbin ex)%nat /\ in_reaching_bin ex ey t level i r) data labels.
Proof.
  intros lx ly norm clim alim ex ey data level Ox Oy t H G. destruct (C162_labels_partial lx ly norm clim alim ex ey data level Ox Oy H) as (labels & E & F).
  exists labels. split; [exact E|]. fold t in F. refine (forall2_weaken _ _ _ _ _ F). intros r lab Q.
  intro i. rewrite Q. split; intros [Li B]; split; try exact Li; [|apply reaching_between, B].
  destruct B as [Bx (j0 & j1 & y & L0 & L1 & S0 & S1 & Ey & Hy)].
  assert (J : (j0 <= j1)%nat). { destruct (le_lt_dec j0 j1) as [|G']; [assumption|]. assert (nth (S j1) ey 0 <= nth j0 ey 0) by (apply Oy; unfold nbin in *; lia). lra. }
  assert (HY : nth 0 ey 0 < y <= nth (nbin ey) ey 0) by (assert (nth 0 ey 0 <= nth j0 ey 0) by (apply Oy; unfold nbin in *; lia); assert (nth (S j1) ey 0 <= nth (nbin ey) ey 0) by (apply Oy; unfold nbin in *; lia); lra).
  destruct (in_some_bin ey y (nbin ey) (Nat.le_refl _) HY) as (j & Lj & Hj).
  exists j. split; [exact Lj|]. split.
  - unfold cell2. rewrite Bx. cbn [andb]. unfold bin. apply inb_true. exists y. auto.
  - apply (G i j0 j j1 Li); [|exact L1|exact S0|exact S1]. split.
    + destruct (le_lt_dec j0 j) as [|G']; [assumption|]. assert (nth (S j) ey 0 <= nth j0 ey 0) by (apply Oy; unfold nbin in *; lia). lra.
    + destruct (le_lt_dec j j1) as [|G']; [assumption|]. assert (nth (S j1) ey 0 <= nth j ey 0) by (apply Oy; unfold nbin in *; lia). lra.
Qed.
(** One column with data and no bin at the level makes the whole call fail. *)
Theorem C162_low_column_refuted : forall lx ly norm clim alim ex ey data level r i j, ordered ex -> ordered ey ->
  let t := agg2 lx ly norm clim alim (map Fin ex) (map Fin ey) FDefault data in
  In r data -> (i < nbin ex)%nat -> (j < nbin ey)%nat -> cell2 ex ey i j r = true -> (forall j', (j' < nbin ey)%nat -> ~ shown t level i j') ->
  above_contour level (map Fin ex) (map Fin ey) t data = Err AttributeError.
Proof.
  intros lx ly norm clim alim ex ey data level r i j Ox Oy t Ir Li Lj C N. unfold above_contour.
  assert (I : In i (columns_of t (List.length (intervals (map Fin ex))))) by (apply (column_iff lx ly norm clim alim ex ey data Ox Oy); split; [exact Li|]; exists r, j; auto).
  assert (E : contour_box level (map Fin ex) (map Fin ey) t i = Err AttributeError).
  { unfold contour_box. rewrite bins_fin. replace (filter _ (seq 0 (nbin ey))) with (@nil nat); [reflexivity|]. symmetry.
    assert (NIL : forall (f : nat -> bool) a, (forall x, In x a -> f x = false) -> filter f a = []) by (intros f a; induction a as [|x a IH]; intro Hf; [reflexivity|]; cbn [filter]; rewrite (Hf x (or_introl eq_refl)); apply IH; intros; apply Hf; right; assumption).
    apply NIL. intros x Ix. apply in_seq in Ix. specialize (N x ltac:(lia)). unfold shown in N. destruct (aleb level (agg2_value t i x)); [destruct N; reflexivity|reflexivity]. }
  assert (A : forall k e, contour_box level (map Fin ex) (map Fin ey) t k = Err e -> e = AttributeError) by (intros k e; unfold contour_box; destruct (filter _ _); [intro Q; injection Q as <-; reflexivity|discriminate]).
  revert I. generalize (columns_of t (List.length (intervals (map Fin ex)))). clear - E A. intros cols I.
  assert (M : mapM (contour_box level (map Fin ex) (map Fin ey) t) cols = Err AttributeError); [|rewrite M; reflexivity].
  induction cols as [|k cols IH]; [destruct I|]. cbn [mapM]. destruct (contour_box level (map Fin ex) (map Fin ey) t k) as [b|e] eqn:Ek; [|rewrite (A k e Ek); reflexivity].
  cbn [bind]. destruct I as [->|I]; [congruence|]. rewrite (IH I). reflexivity.
Qed.
Definition dip : list (XR * XR * XR) := [(Fin 1, Fin 1, Fin 1); (Fin 1, Fin 1, Fin 1); (Fin 1, Fin 2, Fin 1); (Fin 1, Fin 3, Fin 1); (Fin 1, Fin 3, Fin 1)].
(** A datum in a bin below the level, between bins that reach it, is labelled as above the contour. *)
Theorem C162_gap_refuted : exists ex ey level r labels, strictly ex /\ strictly ey /\ unweighted dip /\
  let t := agg2 false false N2None nolim nolim (map Fin ex) (map Fin ey) FDefault dip in
  above_contour level (map Fin ex) (map Fin ey) t dip = Ok labels
  /\ nth_error dip 2 = Some r /\ cell2 ex ey 0 1 r = true /\ agg2_value t 0 1 = Fin 1 /\ level = Fin 2 /\ nth_error labels 2 = Some (Some 0%nat).
Proof.
  assert (Sx : strictly [0; 1]) by (intros i j H; cbn in H; destruct j as [|[|j]]; [lia| |lia]; destruct i as [|i]; try lia; cbn; lra).
  assert (Sy : strictly [0; 1; 2; 3]) by (intros i j H; cbn in H; destruct j as [|[|[|[|j]]]]; [lia| | | |lia]; destruct i as [|[|[|i]]]; try lia; cbn; lra).
  assert (U : unweighted dip) by (intros r I; repeat (destruct I as [<-|I]; [reflexivity|]); destruct I).
  set (t := agg2 false false N2None nolim nolim (map Fin [0; 1]) (map Fin [0; 1; 2; 3]) FDefault dip).
  assert (V : forall j, (j < 3)%nat -> agg2_value t 0 j = cell (limited nolim (tally (cell2 [0; 1] [0; 1; 2; 3] 0 j) dip))) by (intros j L; unfold t; apply counts2_value; auto using strictly_ordered; cbn; lia).
  assert (T0 : tally (cell2 [0; 1] [0; 1; 2; 3] 0 0) dip = 2%nat) by (unfold tally, cell2, dip, bin, inb; cbn [nth filter fst snd]; decb; reflexivity).
  assert (T1 : tally (cell2 [0; 1] [0; 1; 2; 3] 0 1) dip = 1%nat) by (unfold tally, cell2, dip, bin, inb; cbn [nth filter fst snd]; decb; reflexivity).
  assert (T2 : tally (cell2 [0; 1] [0; 1; 2; 3] 0 2) dip = 2%nat) by (unfold tally, cell2, dip, bin, inb; cbn [nth filter fst snd]; decb; reflexivity).
  assert (S0 : shown t (Fin 2) 0 0) by (unfold shown; rewrite V, T0 by lia; cbn; rewrite fin_leb; apply Rleb_true; lra).
  assert (S2 : shown t (Fin 2) 0 2) by (unfold shown; rewrite V, T2 by lia; cbn; rewrite fin_leb; apply Rleb_true; lra).
  destruct (C162_labels_partial false false N2None nolim nolim [0; 1] [0; 1; 2; 3] dip (Fin 2) (strictly_ordered _ Sx) (strictly_ordered _ Sy)) as (labels & E & F).
  { intros r i j _ Li _ _. cbn in Li. replace i with 0%nat by lia. exists 0%nat. split; [cbn; lia|exact S0]. }
  exists [0; 1], [0; 1; 2; 3], (Fin 2), (Fin 1, Fin 2, Fin 1), labels. split; [exact Sx|]. split; [exact Sy|]. split; [exact U|]. fold t in E, F |- *. cbv zeta. split; [exact E|]. split; [reflexivity|].
  split; [unfold cell2, bin, inb; cbn [nth fst snd]; decb; reflexivity|]. split; [rewrite V, T1 by lia; reflexivity|]. split; [reflexivity|].
  unfold dip in F. inversion F as [|? l0 ? m0 _ F0]; subst. inversion F0 as [|? l1 ? m1 _ F1]; subst. inversion F1 as [|? l2 ? m2 Q _]; subst. cbn [nth_error]. f_equal. apply Q. split; [cbn; lia|].
  split; [unfold bin, inb; cbn [nth fst snd]; decb; reflexivity|]. exists 0%nat, 2%nat, 2. split; [cbn; lia|]. split; [cbn; lia|]. split; [exact S0|]. split; [exact S2|]. split; [reflexivity|]. cbn. lra.
Qed.

(* ------------------------------------------------------------------ C163: border lines *)
Definition drawn_at (lx ly : bool) (p : XR * XR) : XR * XR := (if lx then exp10 (fst p) else fst p, if ly then exp10 (snd p) else snd p).
Definition inlims (xlim ylim : option XR * option XR) (p : XR * XR) : Prop := inlim xlim (fst p) /\ inlim ylim (snd p).
Lemma combine_scaled (lx ly : bool) (pts : list (XR * XR)) :
  combine (map (fun v => if lx then exp10 v else v) (map fst pts)) (map (fun v => if ly then exp10 v else v) (map snd pts)) = map (drawn_at lx ly) pts.
Proof. induction pts as [|p pts IH]; [reflexivity|]. cbn [map combine]. rewrite IH. reflexivity. Qed.
(** Without smoothing both borders are drawn through the middles of their bins, on the scale of the axes, as far as they are in the limits. *)
Theorem C163_borders : forall savgol lx ly xlim ylim k top bottom, exists t b, plot_edges (T := XR) savgol lx ly false xlim ylim k top bottom = Ok (t, b)
  /\ (forall p, In p t <-> In p (map (drawn_at lx ly) top) /\ inlims xlim ylim p) /\ (forall p, In p b <-> In p (map (drawn_at lx ly) bottom) /\ inlims xlim ylim p)
  /\ (xlim = nolim -> ylim = nolim -> t = map (drawn_at lx ly) top /\ b = map (drawn_at lx ly) bottom).
Proof.
  intros savgol lx ly xlim ylim k top bottom. unfold plot_edges, one_edge. cbn [bind fst]. rewrite !combine_scaled. eexists _, _. split; [reflexivity|].
  assert (H : forall (l : list (XR * XR)) (p : XR * XR), In p (filter (fun p => within xlim (fst p) && within ylim (snd p)) (map (drawn_at lx ly) l)) <-> In p (map (drawn_at lx ly) l) /\ inlims xlim ylim p)
    by (intros l p; rewrite filter_In, andb_true_iff, !within_iff; reflexivity).
  split; [apply H|]. split; [apply H|]. intros -> ->. split; apply filter_yes.
Qed.
(** the middles of the bins *)
Theorem C163_points : forall ex ey (border : list (k2 * XR)), (forall k v, In (k, v) border -> (fst k < nbin ex)%nat /\ (snd k < nbin ey)%nat) ->
  border_points (map Fin ex) (map Fin ey) border
  = map (fun kv => (Fin ((nth (fst (fst kv)) ex 0 + nth (S (fst (fst kv))) ex 0) / 2), Fin ((nth (snd (fst kv)) ey 0 + nth (S (snd (fst kv))) ey 0) / 2))) border.
Proof.
  intros ex ey border H. unfold border_points. apply map_ext_in. intros [k v] I. destruct (H k v I) as [A B]. cbn [fst]. rewrite !interval_at by assumption. unfold mid. cbn [fst snd].
  rewrite !fin_ofQ, !fin_add, !fin_mul. f_equal; f_equal; cbn; field.
Qed.
(** With default smoothing a border of at least 50 points is smoothed with a window of odd length. *)
Theorem C163_smoothing_partial : forall savgol lx ly top bottom n, List.length top = n -> List.length bottom = n -> (50 <= n)%nat -> exists w t b,
  (5 <= w <= Z.of_nat n)%Z /\ Z.odd w = true /\ plot_edges (T := XR) savgol lx ly true nolim nolim (mkSg None None) top bottom = Ok (t, b)
  /\ (List.length (savgol w 3%Z (map snd top)) = n -> List.length t = n).
Proof.
  intros savgol lx ly top bottom n Lt Lb N. unfold plot_edges, one_edge. rewrite Lt, Lb. set (w := window_used (mkSg None None) n).
  assert (D : (5 <= Nat.div n 10 /\ Nat.div n 10 * 10 <= n)%nat) by (split; [apply Nat.div_le_lower_bound; lia|rewrite Nat.mul_comm; apply Nat.mul_div_le; lia]).
  assert (W : (5 <= w <= Z.of_nat n)%Z /\ Z.odd w = true).
  { unfold w, window_used. cbn [window_length]. set (m := Z.of_nat (Nat.div n 10)). assert (Bm : (5 <= m /\ m * 10 <= Z.of_nat n)%Z) by (unfold m; lia).
    destruct (Z.even m) eqn:E; [|split; [lia|rewrite <- Z.negb_even, E; reflexivity]]. assert (m <> 5%Z) by (intros ->; discriminate E). split; [lia|].
    replace (m - 1)%Z with (Z.pred m) by lia. rewrite Z.odd_pred. exact E. }
  destruct W as [W O]. unfold order_used. cbn [polyorder]. replace (savgol_ok w 3 n) with true by (symmetry; unfold savgol_ok; apply andb_true_iff; rewrite Z.ltb_lt, Z.leb_le; lia).
  cbn [bind fst]. eexists w, _, _. split; [exact W|]. split; [exact O|]. split; [reflexivity|]. intro L.
  replace (fun p : XR * XR => within nolim (fst p) && within nolim (snd p)) with (fun _ : XR * XR => true) by reflexivity. rewrite filter_yes, combine_length, !map_length, Lt, L. apply Nat.min_id.
Qed.
(** Smaller histograms cannot be drawn smoothed, whatever window and order the caller gives: they are used for the upper border only. *)
Theorem C163_small_refuted : forall savgol lx ly xlim ylim k top bottom, (List.length bottom < 50)%nat ->
  plot_edges (T := XR) savgol lx ly true xlim ylim k top bottom = Err ValueError.
Proof.
  intros savgol lx ly xlim ylim k top bottom L. unfold plot_edges, one_edge. destruct (savgol_ok (window_used k (List.length top)) (order_used k) (List.length top)); [|reflexivity].
  cbn [bind fst]. replace (savgol_ok (window_used (mkSg None None) (List.length bottom)) (order_used (mkSg None None)) (List.length bottom)) with false; [reflexivity|]. symmetry.
  unfold savgol_ok, window_used, order_used. cbn [window_length polyorder]. apply andb_false_iff. left. apply Z.ltb_ge.
  assert (D : (Nat.div (List.length bottom) 10 < 5)%nat) by (apply Nat.div_lt_upper_bound; lia).
  destruct (Nat.div (List.length bottom) 10) as [|[|[|[|[|m]]]]]; cbn; lia.
Qed.
Theorem C163_lower_border_refuted : forall savgol lx ly xlim ylim w p top bottom t b,
  plot_edges (T := XR) savgol lx ly true xlim ylim (mkSg (Some w) (Some p)) top bottom = Ok (t, b) ->
  fst (one_edge savgol lx ly true xlim ylim (mkSg (Some w) (Some p)) top) = Ok t /\ fst (one_edge savgol lx ly true xlim ylim (mkSg None None) bottom) = Ok b.
Proof.
  intros savgol lx ly xlim ylim w p top bottom t b. unfold plot_edges. destruct (one_edge savgol lx ly true xlim ylim (mkSg (Some w) (Some p)) top) as [rt k'] eqn:E.
  assert (K : k' = mkSg None None) by (unfold one_edge in E; injection E as _ <-; reflexivity). subst k'. cbn [fst]. destruct rt as [t'|]; [|discriminate]. cbn [bind].
  destruct (fst (one_edge savgol lx ly true xlim ylim (mkSg None None) bottom)); [|discriminate]. cbn [bind]. intro H. injection H as <- <-. auto.
Qed.

(* ------------------------------------------------------------------ C165: contour levels *)
Definition rising (l : list R) : Prop := StronglySorted Rlt l.
Ltac ups := repeat (constructor; [|repeat (constructor; [lra|]); constructor]); try constructor.
Lemma tenths : map (fun i => aofQ (Z.of_nat i) 10) (seq 0 11) = map Fin (map (fun i => INR i / 10) (seq 0 11)).
Proof. rewrite map_map. apply map_ext. intro i. rewrite fin_ofQ, <- INR_IZR_INZ. reflexivity. Qed.
Lemma rising_tenths : rising (map (fun i => INR i / 10) (seq 0 11)).
Proof. cbn [seq map]. rewrite !S_INR. cbn [INR]. unfold rising. ups. Qed.
(** Levels of the caller are used as given. The default levels rise; those of fractions lie in [0, 1], and are the tenths from 0 to
    1 for fractions of a column or row. Counts and the densities of columns and rows are left to matplotlib. *)
Theorem C165_default_levels : forall norm, exists o, contour_levels (T := XR) (Norm norm) None = Ok o
  /\ (o = None <-> norm = N2None \/ norm = N2ColDensity \/ norm = N2RowDensity)
  /\ forall l, o = Some l -> exists q, l = map Fin q /\ rising q /\ (forall x, In x q -> 0 <= x)
     /\ (norm = N2Col \/ norm = N2Row -> q = map (fun i => INR i / 10) (seq 0 11)) /\ (norm <> N2Density -> forall x, In x q -> x <= 1).
Proof.
  intro norm. destruct norm; cbn [contour_levels]; eexists; (split; [reflexivity|]); (split; [split; [try discriminate; auto|intros [H|[H|H]]; try discriminate H; reflexivity]|]);
    intros l H; try discriminate H; assert (H' := f_equal (fun o => match o with Some x => x | None => l end) H); cbv beta iota in H'; subst l; clear H.
  1,2: exists (map (fun i => INR i / 10) (seq 0 11)); split; [exact tenths|]; split; [exact rising_tenths|];
       split; [|split; [reflexivity|intros _]]; intros x I; apply in_map_iff in I; destruct I as (i & <- & I); apply in_seq in I;
       [apply Rmult_le_pos; [apply pos_INR|lra]|assert (INR i <= INR 10) by (apply le_INR; lia); cbn in *; lra].
  - rewrite !fin_ofQ. exists [1 / 100; 1 / 10; 3 / 10; 7 / 10; 99 / 100]. split; [reflexivity|]. split; [unfold rising; ups|].
    split; [|split; [intros [H|H]; discriminate H|intros _]]; intros x I; repeat (destruct I as [<-|I]; [lra|]); destruct I.
  - rewrite !fin_ofQ. exists [3 / 100000; 1 / 10000; 3 / 10000; 1 / 1000; 17 / 10000; 23 / 10000]. split; [reflexivity|]. split; [unfold rising; ups|].
    split; [|split; [intros [H|H]; discriminate H|intros N; destruct N; reflexivity]]; intros x I; repeat (destruct I as [<-|I]; [lra|]); destruct I.
Qed.
Theorem C165_given_levels : forall n l, contour_levels (T := XR) n (Some l) = Ok (Some l).
Proof. reflexivity. Qed.
(** The labels leave out at most the last level. *)
Theorem C165_labelled : forall (l : list XR) x, labelled_levels true (Some (l ++ [x])) = Some l /\ labelled_levels false (Some (l ++ [x])) = Some (l ++ [x]).
Proof. intros l x. unfold labelled_levels, option_map. rewrite removelast_last. auto. Qed.
(** With the normalization by a function there are no default levels. *)
Theorem C165_function_refuted : contour_levels (T := XR) NormWith None = Err ValueError.
Proof. reflexivity. Qed.

(* ------------------------------------------------------------------ C166: opacity *)
Definition reals (l : list XR) : list R := flat_map (fun v => match v with Fin x => [x] | _ => [] end) l.
Lemma filter_isfin l : filter aisfin l = map Fin (reals l).
Proof. induction l as [|v l IH]; [reflexivity|]. destruct v as [x| | |]; cbn [filter reals flat_map app map]; [change (aisfin (Fin x)) with true; cbn iota; f_equal; exact IH| | |]; exact IH. Qed.
Lemma fins_cells l : map Fin l = map cell (map Some l).
Proof. rewrite map_map. reflexivity. Qed.
Lemma present_somes (l : list R) : present (map Some l) = l.
Proof. induction l as [|x l IH]; [reflexivity|]. cbn [map present flat_map app]. f_equal. exact IH. Qed.
(** Every finite value gets an opacity in [0, 1]: 1 at the smallest value, falling strictly to 0 at the largest, the fourth root of
    the place of the value below the largest; what is not finite is invisible. *)
Theorem C166_opacity : forall agg, exists f : R -> R,
  opacity agg = map (fun v => match v with Fin x => Fin (f x) | _ => Fin 0 end) agg
  /\ (forall x, In x (reals agg) -> 0 <= f x <= 1)
  /\ (forall lo, is_bottom lo (reals agg) -> f lo = 1)
  /\ (forall lo hi, is_bottom lo (reals agg) -> is_top hi (reals agg) -> lo < hi -> forall x, In x (reals agg) -> f x ^ 4 * (hi - lo) = hi - x)
  /\ (forall x y, In x (reals agg) -> In y (reals agg) -> x < y -> f y < f x).
Proof.
  intro agg. unfold opacity. rewrite filter_isfin. set (r := reals agg).
  destruct (list_eq_dec Req_EM_T r []) as [E|N].
  { exists (fun _ => 0). rewrite E. split; [|split; [intros x []|split; [intros lo [[] _]|split; [intros lo hi [[] _]|intros x y []]]]].
    apply map_ext_in. intros v I. destruct v as [x| | |]; [|exact fin_a0..]. exfalso. assert (I' : In x r) by (unfold r, reals; apply in_flat_map; exists (Fin x); split; [exact I|left; reflexivity]). rewrite E in I'. destruct I'. }
  rewrite fins_cells. assert (N' : present (map Some r) <> []) by (rewrite present_somes; exact N).
  destruct (series_min_fin _ N') as (lo & -> & B). destruct (series_max_fin _ N') as (hi & -> & Tp). rewrite present_somes in B, Tp.
  assert (LH : lo <= hi) by (apply (proj2 B), (proj1 Tp)).
  exists (fun x => if Req_EM_T lo hi then 1 else if Rlt_dec x hi then Rpower ((hi - x) / (hi - lo)) (1 / 4) else 0).
  assert (POS : forall x, lo < hi -> x < hi -> 0 < (hi - x) / (hi - lo)) by (intros x H1 H2; apply Rdiv_lt_0_compat; lra).
  assert (MONO : forall a b, 0 < a -> a < b -> Rpower a (1 / 4) < Rpower b (1 / 4)).
  { intros a b Pa H. unfold Rpower. apply exp_increasing, Rmult_lt_compat_l; [lra|]. apply ln_increasing; assumption. }
  assert (ONE : Rpower 1 (1 / 4) = 1) by (unfold Rpower; rewrite ln_1, Rmult_0_r; apply exp_0).
  split.
  { apply map_ext_in. intros v I. destruct v as [x| | |]; [change (aisfin (Fin x)) with true; cbn iota|apply fin_a0..].
    assert (Ix : In x r) by (unfold r, reals; apply in_flat_map; exists (Fin x); split; [exact I|left; reflexivity]). pose proof (proj2 B x Ix) as Bx. pose proof (proj2 Tp x Ix) as Tx.
    rewrite fin_eqb. destruct (Req_EM_T lo hi) as [Q|Q]; [replace (Reqb lo hi) with true by (symmetry; apply Reqb_true, Q); apply fin_a1|].
    replace (Reqb lo hi) with false by (symmetry; apply Reqb_false, Q). assert (Dn : hi - lo <> 0) by lra. rewrite fin_a1, !fin_sub, (fin_div _ _ Dn), fin_sub, fin_ofQ.
    replace (1 - (x - lo) / (hi - lo)) with ((hi - x) / (hi - lo)) by (field; lra). destruct (Rlt_dec x hi) as [L|L].
    - apply fin_pow, POS; lra.
    - replace x with hi by lra. replace ((hi - hi) / (hi - lo)) with 0 by (field; lra). change (tpow (Fin 0) (Fin (1 / 4))) with (xpow (Fin 0) (Fin (1 / 4))). unfold xpow.
      replace (Rltb 0 0) with false by (symmetry; apply Rltb_false; lra). replace (Rltb 0 (1 / 4)) with true by (symmetry; apply Rltb_true; lra). reflexivity. }
  split.
  { intros x Ix. pose proof (proj2 B x Ix) as Bx. pose proof (proj2 Tp x Ix) as Tx. destruct (Req_EM_T lo hi) as [Q|Q]; [lra|]. destruct (Rlt_dec x hi) as [L|L]; [|lra]. split.
    - left. unfold Rpower. apply exp_pos.
    - apply Rle_trans with (Rpower 1 (1 / 4)); [|rewrite ONE; lra]. destruct (Req_dec x lo) as [->|D]; [replace ((hi - lo) / (hi - lo)) with 1 by (field; lra); lra|]. left. apply MONO; [apply POS; lra|].
      apply (Rmult_lt_reg_r (hi - lo)); [lra|]. unfold Rdiv. rewrite Rmult_assoc, Rinv_l by lra. lra. }
  split.
  { intros x Bx. rewrite (bottom_unique _ _ _ Bx B). destruct (Req_EM_T lo hi) as [Q|Q]; [reflexivity|]. destruct (Rlt_dec lo hi) as [L|L]; [|lra]. replace ((hi - lo) / (hi - lo)) with 1 by (field; lra). exact ONE. }
  split.
  { intros lo' hi' B' T' L x Ix. rewrite (bottom_unique _ _ _ B' B), (top_unique _ _ _ T' Tp) in *. pose proof (proj2 Tp x Ix) as Tx. destruct (Req_EM_T lo hi) as [Q|Q]; [lra|].
    destruct (Rlt_dec x hi) as [Lx|Lx].
    - rewrite <- Rpower_pow by (unfold Rpower; apply exp_pos). rewrite Rpower_mult. replace (1 / 4 * INR 4) with 1 by (cbn; lra). rewrite Rpower_1 by (apply POS; lra). field. lra.
    - replace x with hi by lra. ring. }
  intros x y Ix Iy H. pose proof (proj2 B x Ix) as Bx. pose proof (proj2 Tp y Iy) as Ty. destruct (Req_EM_T lo hi) as [Q|Q]; [lra|].
  destruct (Rlt_dec x hi) as [Lx|Lx]; [|lra]. destruct (Rlt_dec y hi) as [Ly|Ly]; [|unfold Rpower; apply exp_pos]. apply MONO; [apply POS; lra|].
  apply Rmult_lt_compat_r; [apply Rinv_0_lt_compat; lra|lra].
Qed.
Example C166_ex : exists f : R -> R, opacity [Fin 1; NaN; Fin 17; Fin 2; PInf] = [Fin (f 1); Fin 0; Fin (f 17); Fin (f 2); Fin 0] /\ f 1 = 1 /\ f 17 = 0 /\ 0 < f 2 < 1.
Proof.
  destruct (C166_opacity [Fin 1; NaN; Fin 17; Fin 2; PInf]) as (f & E & R & B & P & D). cbn [reals flat_map app] in *. exists f. split; [exact E|].
  assert (B1 : is_bottom 1 [1; 17; 2]) by (split; [left; reflexivity|intros x I; repeat (destruct I as [<-|I]; [lra|]); destruct I]).
  assert (T1 : is_top 17 [1; 17; 2]) by (split; [right; left; reflexivity|intros x I; repeat (destruct I as [<-|I]; [lra|]); destruct I]).
  assert (F1 : f 1 = 1) by (apply B, B1). split; [exact F1|].
  pose proof (P 1 17 B1 T1 ltac:(lra) 17 ltac:(right; left; reflexivity)) as Q. assert (Q' : f 17 ^ 4 = 0) by lra.
  split; [destruct (Req_dec (f 17) 0) as [Z|Z]; [exact Z|destruct (pow_nonzero _ 4 Z Q')]|].
  pose proof (D 1 2 ltac:(left; reflexivity) ltac:(right; right; left; reflexivity) ltac:(lra)). pose proof (D 2 17 ltac:(right; right; left; reflexivity) ltac:(right; left; reflexivity) ltac:(lra)).
  pose proof (R 17 ltac:(right; left; reflexivity)). lra.
Qed.

(* ------------------------------------------------------------------ C167: what a 1D histogram plot shows *)
Definition middles (lg : bool) (e : list R) : list XR := map (fun i => let m := (nth i e 0 + nth (S i) e 0) / 2 in Fin (if lg then Rpower 10 m else m)) (seq 0 (nbin e)).
Lemma plotted_middles (lg : bool) e : map (fun i : XR * XR => let m := mid i in if lg then exp10 m else m) (intervals (map Fin e)) = middles lg e.
Proof.
  rewrite intervals_nth, map_map. unfold middles. apply map_ext. intro i. unfold mid. cbn [fst snd]. rewrite fin_ofQ, fin_add, fin_mul. cbv zeta.
  replace (IZR 1 / IZR (Zpos 2) * (nth i e 0 + nth (S i) e 0)) with ((nth i e 0 + nth (S i) e 0) / 2) by (cbn; field). destruct lg; [apply exp10_fin|reflexivity].
Qed.
(** The values are drawn over the middles of their bins, on the scale of the data, with their spreads as error bars; with the axes
    swapped, both are drawn along the other axis. *)
Theorem C167_bars : forall lg e v s, hist1d_plot (T := XR) lg false false (map Fin e) v s = Ok (Bars (middles lg e) v None s)
  /\ hist1d_plot (T := XR) lg true false (map Fin e) v s = Ok (Bars v (middles lg e) s None).
Proof. intros lg e v s. unfold hist1d_plot. rewrite plotted_middles. auto. Qed.
(** The band goes from one spread below each value to one spread above it. *)
Theorem C167_band_partial : forall lg e v s, List.length v = List.length s ->
  exists low high, hist1d_plot (T := XR) lg false true (map Fin e) (map Fin v) (Some (map Fin s)) = Ok (Band (middles lg e) (map Fin v) (map Fin low) (map Fin high))
  /\ List.length low = List.length v /\ List.length high = List.length v
  /\ forall i, (i < List.length v)%nat -> nth i low 0 = nth i v 0 - nth i s 0 /\ nth i high 0 = nth i v 0 + nth i s 0.
Proof.
  intros lg e v s L. unfold hist1d_plot. rewrite plotted_middles. exists (map (fun p => fst p - snd p) (combine v s)), (map (fun p => fst p + snd p) (combine v s)).
  assert (C : combine (map Fin v) (map Fin s) = map (fun p => (Fin (fst p), Fin (snd p))) (combine v s)).
  { clear L. revert s. induction v as [|a v IH]; intros [|b s]; [reflexivity..|]. cbn [map combine fst snd]. f_equal. apply IH. }
  split; [rewrite C, !map_map; apply (f_equal2 (fun a b => Ok (Band (middles lg e) (map Fin v) a b))); apply map_ext; intro p; cbn [fst snd]; [apply fin_sub|apply fin_add]|].
  rewrite !map_length, combine_length, L, Nat.min_id. split; [reflexivity|]. split; [reflexivity|]. intros i Li.
  split; [etransitivity; [apply (nth_indep _ 0 ((fun p : R * R => fst p - snd p) (0, 0))); rewrite map_length, combine_length, L, Nat.min_id; exact Li|]; etransitivity; [exact (map_nth (fun p : R * R => fst p - snd p) (combine v s) (0, 0) i)|]|
         etransitivity; [apply (nth_indep _ 0 ((fun p : R * R => fst p + snd p) (0, 0))); rewrite map_length, combine_length, L, Nat.min_id; exact Li|]; etransitivity; [exact (map_nth (fun p : R * R => fst p + snd p) (combine v s) (0, 0) i)|]];
    rewrite (combine_nth v s i 0 0 L); reflexivity.
Qed.
(** With the axes swapped, or with one function only, a band cannot be drawn. *)
Theorem C167_swapped_band_refuted : forall lg b v s, hist1d_plot (T := XR) lg true true b v s = Err TypeError.
Proof. reflexivity. Qed.
Theorem C167_band_without_spread_refuted : forall lg transpose b v, hist1d_plot (T := XR) lg transpose true b v None = Err TypeError.
Proof. intros lg [|] b v; reflexivity. Qed.

(* ------------------------------------------------------------------ C164: means and projections *)
(** the values of the rows whose x is in bin i *)
Definition in_bin_i (e : list R) (i : nat) (rows : list (XR * option R)) : list R := present (map snd (filter (fun r => bin e i (fst r)) rows)).
Definition mean_or_none (l : list R) : XR := match l with [] => NaN | _ => Fin (ActivityThms.mean l) end.
Definition two_values (l : list R) : Prop := exists a b, In a l /\ In b l /\ a <> b.
Lemma filter_notnan_cells l : filter notnan (map cell l) = map Fin (present l).
Proof. apply clean_cells. Qed.
Lemma distinct_in (l : list R) x : In (Fin x) (distinct (map Fin l)) <-> In x l.
Proof.
  induction l as [|a l IH]; [reflexivity|]. cbn [map distinct]. destruct (existsb (aeqb (Fin a)) (map Fin l)) eqn:E.
  - rewrite IH. split; [right; assumption|]. intros [->|I]; [|exact I]. apply existsb_exists in E. destruct E as (v & I & Q). apply in_map_iff in I. destruct I as (b & <- & I).
    rewrite fin_eqb in Q. apply Reqb_true in Q. subst b. exact I.
  - cbn [In]. rewrite IH. split; intros [H|H]; auto; left; congruence.
Qed.
Lemma the_mean os : two_values (present os) -> the_fcn FDefault (map cell os) = (Hist.mean (T := XR)).
Proof.
  intros (a & b & Ia & Ib & N). unfold the_fcn. rewrite filter_notnan_cells. destruct (Nat.eqb (List.length (distinct (map Fin (present os)))) 1) eqn:E; [|reflexivity]. exfalso.
  apply Nat.eqb_eq in E. apply distinct_in in Ia. apply distinct_in in Ib. destruct (distinct (map Fin (present os))) as [|u [|w r]]; [discriminate E| |discriminate E]. destruct Ia as [Ia|[]], Ib as [Ib|[]]. apply N. congruence.
Qed.
Lemma mean_cells os : Hist.mean (map cell os) = mean_or_none (present os).
Proof.
  unfold Hist.mean. rewrite sum_skip_cells. unfold count. rewrite filter_notnan_cells, map_length. unfold ofnat. rewrite fin_ofZ, <- INR_IZR_INZ. unfold mean_or_none, ActivityThms.mean.
  destruct (present os) as [|a l]; [cbn [List.length INR Rsum fold_right]|apply fin_div, not_0_INR; discriminate].
  change (xdiv (Fin 0) (Fin 0) = NaN). unfold xdiv, inf_sign. replace (Reqb 0 0) with true by (symmetry; apply Reqb_true; reflexivity). replace (Rltb 0 0) with false by (symmetry; apply Rltb_false; lra). reflexivity.
Qed.

Lemma members_bin e (rows : list (XR * option R)) i : ordered e -> (i < nbin e)%nat ->
  members nat Nat.eqb (rows1 (map Fin e) (map (fun r => (fst r, cell (snd r))) rows)) i = map cell (map snd (filter (fun r => bin e i (fst r)) rows)).
Proof.
  intros O L. unfold members, rows1. rewrite map_map. cbn [fst snd]. induction rows as [|r rows IH]; [reflexivity|]. cbn [map filter fst snd].
  rewrite <- (cut_match e (fst r) i O L). destruct (match cut (map Fin e) (fst r) with Some q => Nat.eqb q i | None => false end); cbn [map]; rewrite IH; reflexivity.
Qed.
(** A 1D histogram of y over x shows, in each bin, the mean of the values of y there that are not missing. *)
Theorem C164_means_1d : forall lg e (rows : list (XR * option R)), ordered e -> two_values (present (map snd rows)) ->
  exists t, agg1 lg N1None nolim (map Fin e) FDefault (map (fun r => (fst r, cell (snd r))) rows) = Ok t
  /\ forall i, (i < nbin e)%nat -> agg1_value t i = mean_or_none (in_bin_i e i rows).
Proof.
  intros lg e rows O V. unfold agg1, axis_normalizer1. eexists. split; [reflexivity|]. intros i L. unfold agg1_value. rewrite runner_gtab, (at_gtab_in nat Nat.eqb nat_eqb_spec) by (rewrite bins_fin; apply in_seq; lia).
  assert (M : map snd (rows1 (map Fin e) (map (fun r => (fst r, cell (snd r))) rows)) = map cell (map snd rows)) by (unfold rows1; rewrite !map_map; reflexivity).
  rewrite M, (the_mean _ V), members_bin, mean_cells by assumption. replace (within nolim _) with true by reflexivity. fold (in_bin_i e i rows).
  destruct (is_observed nat Nat.eqb (rows1 (map Fin e) (map (fun r => (fst r, cell (snd r))) rows)) i) eqn:Ob; [reflexivity|].
  unfold in_bin_i. replace (filter (fun r => bin e i (fst r)) rows) with (@nil (XR * option R)); [reflexivity|]. symmetry. clear M V.
  unfold is_observed, rows1 in Ob. rewrite map_map in Ob. induction rows as [|r rows IH]; [reflexivity|]. cbn [map existsb fst snd filter] in *. apply orb_false_elim in Ob. destruct Ob as [Ob1 Ob2].
  rewrite <- (cut_match e (fst r) i O L), Ob1. apply IH, Ob2.
Qed.

(** the y of a row that the 2D plot could show, on the scale of the data *)
Definition shown_y (ly : bool) (ey : list R) (y : XR) : option R :=
  match y with Fin y => if Rleb (nth 0 ey 0) y && Rleb y (last ey 0) then Some (if ly then Rpower 10 y else y) else None | _ => None end.
Lemma masked_cell (ly : bool) ey y : ey <> [] ->
  (if aleb (nth 0 (map Fin ey) anan) y && aleb y (last (map Fin ey) anan) then (if ly then exp10 y else y) else anan) = cell (shown_y ly ey y).
Proof.
  intro N. assert (H0 : nth 0 (map Fin ey) anan = Fin (nth 0 ey 0)) by (destruct ey; [contradiction|reflexivity]).
  assert (HL : last (map Fin ey) anan = Fin (last ey 0)).
  { destruct (exists_last N) as (l & x & ->). rewrite map_app. cbn [map]. rewrite !last_last. reflexivity. }
  rewrite H0, HL. destruct y as [y| | |]; [| | |]; try reflexivity.
  - rewrite !fin_leb. unfold shown_y. destruct (Rleb (nth 0 ey 0) y && Rleb y (last ey 0)); [|reflexivity]. destruct ly; [rewrite exp10_fin; reflexivity|reflexivity].
Qed.
Lemma filter_combine_true {X} (l : list X) : map fst (filter snd (combine l (map (fun _ => true) l))) = l.
Proof. induction l as [|x l IH]; [reflexivity|]. cbn [map combine filter snd fst]. f_equal. exact IH. Qed.
Lemma not_weighted data : unweighted data -> Nat.leb 2 (List.length (distinct (filter notnan (map snd data))) + if existsb aisnan (map snd data) then 1 else 0) = false.
Proof.
  intro U. assert (E : map snd data = map cell (map Some (map (fun _ => 1) data))) by (rewrite !map_map; apply map_ext_in; intros r I; exact (U r I)).
  assert (N : existsb aisnan (map snd data) = false).
  { clear E. induction data as [|r data IH]; [reflexivity|]. cbn [map existsb]. rewrite (U r (or_introl eq_refl)), fin_isnan. apply IH. intros q I. apply U. right. exact I. }
  rewrite N, E, filter_notnan_cells, present_somes, Nat.add_0_r. clear.
  assert (B : (List.length (distinct (map Fin (map (fun _ : XR * XR * XR => 1%R) data))) <= 1)%nat).
  { induction data as [|r data IH]; [cbn; lia|]. cbn [map distinct]. destruct data as [|q data]; [cbn; lia|]. cbn [map existsb]. rewrite fin_eqb. replace (Reqb 1 1) with true by (symmetry; apply Reqb_true; reflexivity). exact IH. }
  apply Nat.leb_gt. lia.
Qed.
(** Projecting unweighted data on x shows the mean y of each column, of the rows in the range of the y bins. *)
Theorem C164_projection_partial : forall lx ly norm clim alim ex ey data, ordered ex -> ey <> [] -> unweighted data ->
  two_values (present (map (fun r => shown_y ly ey (snd (fst r))) data)) ->
  exists t, projection true false false lx ly norm clim alim (map Fin ex) (map Fin ey) data = Ok t
  /\ forall i, (i < nbin ex)%nat -> agg1_value t i = mean_or_none (present (map (fun r => shown_y ly ey (snd (fst r))) (filter (fun r => bin ex i (fst (fst r))) data))).
Proof.
  intros lx ly norm clim alim ex ey data Ox Ny U V. unfold projection, project_1d. rewrite filter_combine_true, (not_weighted data U). cbv zeta iota.
  set (rows := map (fun r => (coord lx (if lx then exp10 (fst (fst r)) else fst (fst r)), shown_y ly ey (snd (fst r)))) data).
  assert (D : set_data1 lx (map (fun r : XR * XR * XR => if lx then exp10 (fst (fst r)) else fst (fst r)) data)
     (Some (map (fun r => if aleb (nth 0 (map Fin ey) anan) (snd (fst r)) && aleb (snd (fst r)) (last (map Fin ey) anan) then (if ly then exp10 (snd (fst r)) else snd (fst r)) else anan) data))
     = map (fun r => (fst r, cell (snd r))) rows).
  { unfold set_data1, rows. rewrite !map_map. rewrite (map_ext (fun r : XR * XR * XR => if aleb (nth 0 (map Fin ey) anan) (snd (fst r)) && aleb (snd (fst r)) (last (map Fin ey) anan) then (if ly then exp10 (snd (fst r)) else snd (fst r)) else anan) (fun r => cell (shown_y ly ey (snd (fst r))))) by (intro r; apply masked_cell, Ny).
    clear. induction data as [|r data IH]; [reflexivity|]. cbn [map combine fst snd]. f_equal. exact IH. }
  rewrite D. destruct (C164_means_1d lx ex rows Ox) as (t & E & Q); [unfold rows; rewrite map_map; exact V|]. exists t. split; [exact E|]. intros i L. rewrite (Q i L). unfold in_bin_i, rows. f_equal. f_equal.
  clear - L. induction data as [|r data IH]; [reflexivity|]. cbn [map filter fst snd]. rewrite bin_roundtrip. destruct (bin ex i (fst (fst r))); cbn [map snd]; rewrite IH; reflexivity.
Qed.

(** The same value of y everywhere is shown as a number of rows, not as a mean. *)
Theorem C164_constant_refuted : forall lx e c (xs : list XR), ordered e -> xs <> [] ->
  exists t, agg1 lx N1None nolim (map Fin e) FDefault (map (fun x => (x, Fin c)) xs) = Ok t
  /\ forall i, (i < nbin e)%nat -> tally (bin e i) xs <> 0%nat -> agg1_value t i = Fin (INR (tally (bin e i) xs)).
Proof.
  intros lx e c xs O N. unfold agg1, axis_normalizer1. eexists. split; [reflexivity|]. intros i L NT. unfold agg1_value. rewrite runner_gtab, (at_gtab_in nat Nat.eqb nat_eqb_spec) by (rewrite bins_fin; apply in_seq; lia).
  set (rows := map (fun x => (x, Some c)) xs). assert (R : map (fun x => (x, Fin c)) xs = map (fun r => (fst r, cell (snd r))) rows) by (unfold rows; rewrite map_map; reflexivity). rewrite R.
  replace (within nolim _) with true by reflexivity. rewrite (members_bin e rows i O L).
  assert (M : map snd (rows1 (map Fin e) (map (fun r => (fst r, cell (snd r))) rows)) = map Fin (map (fun _ => c) xs)) by (unfold rows1, rows; rewrite !map_map; reflexivity).
  assert (F : the_fcn (T := XR) FDefault (map snd (rows1 (map Fin e) (map (fun r => (fst r, cell (snd r))) rows))) = (@count XR _)).
  { unfold the_fcn. rewrite M, fins_cells, filter_notnan_cells, present_somes. replace (Nat.eqb _ 1) with true; [reflexivity|]. symmetry. apply Nat.eqb_eq. clear - N.
    induction xs as [|a [|b xs] IH]; [contradiction|reflexivity|]. cbn [map distinct existsb]. rewrite fin_eqb. replace (Reqb c c) with true by (symmetry; apply Reqb_true; reflexivity). apply IH. discriminate. }
  assert (C : count (map cell (map snd (filter (fun r => bin e i (fst r)) rows))) = Fin (INR (tally (bin e i) xs))).
  { unfold count. rewrite filter_notnan_cells, map_length. unfold ofnat. rewrite fin_ofZ, <- INR_IZR_INZ. do 2 f_equal. unfold rows, tally. clear.
    induction xs as [|x xs IH]; [reflexivity|]. cbn [map filter fst snd]. destruct (bin e i x); cbn [map snd present flat_map app List.length]; [f_equal|]; exact IH. }
  rewrite F, C. destruct (is_observed nat Nat.eqb (rows1 (map Fin e) (map (fun r => (fst r, cell (snd r))) rows)) i) eqn:Ob; [reflexivity|]. exfalso. apply NT. unfold tally. apply length_zero_iff_nil.
  unfold is_observed, rows1, rows in Ob. rewrite !map_map in Ob. cbn [fst snd] in Ob. clear - Ob O L. induction xs as [|x xs IH]; [reflexivity|]. cbn [map existsb filter fst] in *. apply orb_false_elim in Ob. destruct Ob as [Ob1 Ob2].
  rewrite <- (cut_match e x i O L), Ob1. apply IH, Ob2.
Qed.
(** On y, with a logarithmic x axis, the mean is that of the logarithms; rows outside the range of x count too. *)
Theorem C164_on_y_refuted : exists ex ey data t, unweighted data /\ ordered ex /\ ordered ey
  /\ projection (T := XR) false false false true false N2None nolim nolim (map Fin ex) (map Fin ey) data = Ok t
  /\ data = [(Fin 1, Fin 1, Fin 1); (Fin 3, Fin 1, Fin 1)] /\ ex = [0; 1] /\ agg1_value t 0 = Fin 2.
Proof.
  set (data := [(Fin 1, Fin 1, Fin 1); (Fin 3, Fin 1, Fin 1)]).
  assert (O : ordered [0; 1]) by (apply strictly_ordered; intros i j H; cbn in H; destruct j as [|[|j]]; [lia| |lia]; destruct i as [|i]; try lia; cbn; lra).
  assert (U : unweighted data) by (intros r I; repeat (destruct I as [<-|I]; [reflexivity|]); destruct I).
  destruct (C164_means_1d false [0; 1] [(Fin 1, Some 1); (Fin 1, Some 3)] O) as (t & E & Q); [exists 1, 3; cbn; repeat split; auto; lra|].
  exists [0; 1], [0; 1], data, t. split; [exact U|]. split; [exact O|]. split; [exact O|]. split.
  - rewrite <- E. unfold projection, project_1d. rewrite filter_combine_true, (not_weighted data U). reflexivity.
  - split; [reflexivity|]. split; [reflexivity|]. rewrite Q by (cbn; lia). unfold in_bin_i, bin, inb. cbn [filter nth fst snd]. decb. cbn. unfold ActivityThms.mean. cbn. f_equal. field.
Qed.
Example C164_ex : exists t, projection (T := XR) true false false false false N2None nolim nolim (map Fin [0; 1; 2]) (map Fin [0; 4])
    [(Fin 1, Fin 1, Fin 1); (Fin 1, Fin 3, Fin 1); (Fin 1, Fin 9, Fin 1); (Fin 2, NaN, Fin 1)] = Ok t /\ agg1_value t 0 = Fin 2 /\ agg1_value t 1 = NaN.
Proof.
  set (data := [(Fin 1, Fin 1, Fin 1); (Fin 1, Fin 3, Fin 1); (Fin 1, Fin 9, Fin 1); (Fin 2, NaN, Fin 1)]).
  assert (U : unweighted data) by (intros r I; repeat (destruct I as [<-|I]; [reflexivity|]); destruct I).
  destruct (C164_projection_partial false false N2None nolim nolim [0; 1; 2] [0; 4] data (strictly_ordered _ strictly_012)) as (t & E & Q); [discriminate|exact U| |].
  - exists 1, 3. unfold data, shown_y. cbn [map fst snd nth last]. decb. cbn. repeat split; auto. lra.
  - exists t. split; [exact E|]. split; rewrite Q by (cbn; lia); unfold data, shown_y, bin, inb; cbn [filter nth fst snd]; decb; cbn [map fst snd nth last andb]; decb; cbn; unfold ActivityThms.mean; cbn; [f_equal; field|reflexivity].
Qed.
