(** Sharper statements about properties proved elsewhere, found by changing the models, second half: C62 (the shipped table), C64,
    C76 (weights), C81, C84 (finite cells), C159, C164 (log axes of projections), C01/C09 (Ion data), C182 (an Ion's own quantities). *)
From Coq Require Import Reals List String Ascii Bool Arith ZArith Lra Lia Permutation Sorted.
From Verif Require Import Py PyStr Sort Num Species Frame FrameProofs Plasma PlasmaProofs PlasmaThms Solar SolarThms PlotTools PlotToolsThms
  Hist HistThms HistMoreThms Spiral SpiralThms Orbits OrbitsThms HistPlot HistPlotThms.
Import ListNotations.
Open Scope string_scope.
Open Scope list_scope.

(* ------------------------------------------------------------------ C62: the table of extrema that is shipped *)
(** cycle, and the minimum and the maximum in days since 1 January 1970 *)
Definition shipped_days : list (Z * Z * Z) := [
  (1, -78496, -76184); (2, -74358, -73170); (3, -71071, -70006); (4, -67691, -66443); (5, -62731, -60234); (6, -58258, -56127); (7, -53571, -51195);
  (8, -49734, -48518); (9, -46205, -44529); (10, -41669, -40146); (11, -37561, -36312); (12, -33268, -31442); (13, -29160, -27758); (14, -24837, -23345);
  (15, -20638, -19146); (16, -16955, -15250); (17, -13271, -11963); (18, -9466, -8281); (19, -5754, -4324); (20, -1918, -426); (21, 2251, 3621);
  (22, 6087, 7244); (23, 9709, 11627); (24, 14214, 16161); (25, 18231, 22249)]%Z.
Theorem C62_shipped_table :
  map (fun r => (x_no r, x_min r, x_max r)) ssn_extrema =
  map (fun d => let '(n, a, b) := d in (n, Some (a * (24 * 3600 * 1000000000))%Z, Some (b * (24 * 3600 * 1000000000))%Z)) shipped_days.
Proof. vm_compute. reflexivity. Qed.
Print Assumptions C62_shipped_table.

(* ------------------------------------------------------------------ C64: an unknown kind of extremum *)
Theorem C64_unknown_kind :
  forall name bands tk kinds k epoch, In k kinds -> ~ In k (map b_kind bands) ->
  (forall ns n, tk = Some ns -> In n ns -> In n (map b_no bands)) ->
  cut_about_extrema_bands name bands tk (Some kinds) epoch = Err KeyError.
Proof.
  intros name bands tk kinds k epoch I N T. unfold cut_about_extrema_bands.
  assert (B : exists bs, (match tk with None => Ok bands | Some ns => if forallb (fun n => existsb (fun b => Z.eqb (b_no b) n) bands) ns
    then Ok (flat_map (fun n => filter (fun b => Z.eqb (b_no b) n) bands) ns) else Err KeyError end) = Ok bs).
  { destruct tk as [ns|]; [|eexists; reflexivity]. replace (forallb _ ns) with true; [eexists; reflexivity|]. symmetry. apply forallb_forall. intros n In_n.
    specialize (T ns n eq_refl In_n). apply in_map_iff in T. destruct T as (b & E & IB). apply existsb_exists. exists b. split; [exact IB|apply Z.eqb_eq, E]. }
  destruct B as (bs & ->). cbn [bind]. cbv zeta. replace (forallb _ kinds) with false; [reflexivity|].
  symmetry. apply not_true_is_false. intro H. rewrite forallb_forall in H. specialize (H k I). apply existsb_exists in H. destruct H as (b & IB & E).
  apply String.eqb_eq in E. apply N. rewrite <- E. apply in_map, IB.
Qed.
Print Assumptions C64_unknown_kind.
Example C64_unknown_ex : cut_about_extrema_bands "Number" [mkB 1 "Min" (mkI 0 5)] None (Some ["Mid"]) [Some 1%Z] = Err KeyError.
Proof. reflexivity. Qed.

(* ------------------------------------------------------------------ C81: no rows or no columns *)
Theorem C81_empty_grid :
  forall lower nrows ncols loc sx sy,
  (In (lower loc) ["left"; "right"] /\ nrows = 0%nat \/ In (lower loc) ["top"; "bottom"] /\ ncols = 0%nat) ->
  build_ax_array_with_common_colorbar lower nrows ncols loc sx sy = Err ValueError.
Proof.
  intros lower nrows ncols loc sx sy H. unfold build_ax_array_with_common_colorbar. cbv zeta.
  destruct H as [[[E|[E|[]]] ->]|[[E|[E|[]]] ->]]; rewrite <- E; cbn [loc_ok String.eqb Ascii.eqb Bool.eqb orb negb heights_of widths_of repeat List.length Nat.eqb];
    rewrite ?orb_true_r; reflexivity.
Qed.
Print Assumptions C81_empty_grid.

(* ------------------------------------------------------------------ C159: limited colours without any norm *)
Theorem C159_limited_colours_refused :
  forall norm kind l cbar, names_leg kind l -> norm <> N2Col -> norm <> N2Row ->
  make_one_plot norm kind false true cbar = Err AttributeError /\ make_in_out_plot norm false true cbar = Err AttributeError.
Proof.
  intros norm kind l cbar H N1 N2. unfold make_one_plot, make_in_out_plot. rewrite (proj2 (proj1 (plot_kind_spec kind) l) H). cbn [bind].
  destruct norm; try contradiction; split; reflexivity.
Qed.
Print Assumptions C159_limited_colours_refused.

(* ------------------------------------------------------------------ C84: only finite cells are kept, whatever the edges *)
Definition real_corners (c : box XR) : Prop := exists a b c' d : R, c = mk_box (Fin a) (Fin b) (Fin c') (Fin d).
Lemma aisfin_real (x : XR) : aisfin x = true -> exists r, x = Fin r.
Proof. destruct x; intro H; try discriminate H. eexists. reflexivity. Qed.
Theorem C84_only_finite_cells :
  forall fuel m (ex ey : list XR) data mesh, generate_mesh fuel m ex ey data = Ok (Some mesh) -> forall c, In c mesh -> real_corners c.
Proof.
  intros fuel m ex ey data mesh H c I. unfold generate_mesh in H. destruct (initialize_bins ex ey) as [|c0 cells]; [discriminate H|].
  destruct (refine _ _ _ _ _) as [l|]; [|discriminate H]. injection H as <-. apply filter_In in I. destruct I as [_ F]. unfold finite_cell in F.
  rewrite !andb_true_iff in F. destruct F as [[[F1 F2] F3] F4].
  destruct c as [a b c d]. cbn [bx0 bx1 by0 by1] in *. apply aisfin_real in F1, F2, F3, F4.
  destruct F1 as [? ->], F2 as [? ->], F3 as [? ->], F4 as [? ->]. eexists _, _, _, _. reflexivity.
Qed.
Print Assumptions C84_only_finite_cells.
Example C84_finite_ex : exists mesh, generate_mesh 1 5 [Fin 0; Fin 1; PInf] [Fin 0; Fin 1] [(Fin 0, Fin 0)] = Ok (Some mesh) /\ List.length mesh = 1%nat.
Proof.
  unfold generate_mesh. change (initialize_bins [Fin 0; Fin 1; PInf] [Fin 0; Fin 1]) with [mk_box (Fin 0) (Fin 1) (Fin 0) (Fin 1); mk_box (Fin 1) PInf (Fin 0) (Fin 1)].
  set (cs := [mk_box (Fin 0) (Fin 1) (Fin 0) (Fin 1); mk_box (Fin 1) PInf (Fin 0) (Fin 1)]). set (d := filter (in_mesh cs) [(Fin 0, Fin 0)]).
  assert (L : (List.length d <= 1)%nat) by (unfold d; cbn [filter]; destruct (in_mesh cs (Fin 0, Fin 0)); cbn; lia).
  assert (O : forall c, overfull 5 d c = false).
  { intro c. unfold overfull, cell_count. apply Nat.ltb_ge. etransitivity; [|apply (Nat.le_trans _ 1); [exact L|lia]]. clear. induction d as [|x d IH]; [cbn; lia|].
    cbn [filter]. destruct (in_cell c x); cbn [List.length]; lia. }
  unfold cs at 1. change [mk_box (Fin 0) (Fin 1) (Fin 0) (Fin 1); mk_box (Fin 1) PInf (Fin 0) (Fin 1)] with cs. fold d.
  assert (RF : refine 1 5 d [] cs = Some cs) by (unfold cs; cbn [refine filter]; rewrite !O; reflexivity).
  change (exists mesh, Ok (option_map (filter finite_cell) (refine 1 5 d [] cs)) = Ok (Some mesh) /\ List.length mesh = 1%nat). rewrite RF. cbn [option_map].
  eexists. split; [reflexivity|]. reflexivity.
Qed.

(* ------------------------------------------------------------------ C76: cumulative distributions of weighted data *)
(** The weights take at most two values, a missing one counting as a value. *)
Definition at_most_two (l : list XR) : Prop := exists a b, forall v, In v l -> v = a \/ v = b.
Definition observed_weights (l : list XR) : Prop := forall v, In v l -> v = NaN \/ exists r, v = Fin r.
Lemma distinct_mem (l : list R) v : In v (distinct (map Fin l)) -> exists x, v = Fin x /\ In x l.
Proof.
  induction l as [|a l IH]; [intros []|]. cbn [map distinct]. destruct (existsb _ _); cbn [In].
  - intro H. destruct (IH H) as (x & -> & I). exists x. auto.
  - intros [<-|H]; [exists a; auto|]. destruct (IH H) as (x & -> & I). exists x. auto.
Qed.
Lemma distinct_nodup (l : list R) : NoDup (distinct (map Fin l)).
Proof.
  induction l as [|a l IH]; [constructor|]. cbn [map distinct]. destruct (existsb (aeqb (Fin a)) (map Fin l)) eqn:E; [exact IH|]. constructor; [|exact IH].
  intro I. apply distinct_mem in I. destruct I as (x & X & I). injection X as <-. assert (K : existsb (aeqb (Fin a)) (map Fin l) = true); [|rewrite K in E; discriminate E].
  apply existsb_exists. exists (Fin a). split; [apply in_map, I|]. rewrite fin_eqb. apply Reqb_true. reflexivity.
Qed.
Lemma weights_split (l : list XR) : observed_weights l -> exists rs, filter notnan l = map Fin rs /\ (forall r, In (Fin r) l <-> In r rs).
Proof.
  induction l as [|v l IH]; intro H; [exists []; split; [reflexivity|intro; reflexivity]|].
  destruct IH as (rs & E & M); [intros w W; apply H; right; exact W|]. destruct (H v (or_introl eq_refl)) as [->|[r ->]].
  - exists rs. cbn [filter]. change (notnan NaN) with false. split; [exact E|]. intro r. rewrite <- M. cbn [In]. split; [intros [Q|Q]; [discriminate Q|exact Q]|auto].
  - exists (r :: rs). cbn [filter]. replace (notnan (Fin r)) with true by reflexivity. split; [cbn [map]; rewrite E; reflexivity|]. intro q. cbn [In]. rewrite M.
    split; (intros [Q|Q]; [left; congruence|right; exact Q]).
Qed.
Lemma nan_in (l : list XR) : existsb aisnan l = true <-> In NaN l.
Proof.
  rewrite existsb_exists. split; [intros (v & I & N)|intro I; exists NaN; split; [exact I|reflexivity]]. destruct v; try discriminate N. exact I.
Qed.
Theorem C76_weights_allowed :
  forall lg clim norm e only data, observed_weights (map snd data) ->
  (exists out, construct_cdf lg clim norm e only data = Ok out) <-> at_most_two (map snd data).
Proof.
  intros lg clim norm e only data W. unfold construct_cdf.
  set (z := map snd data) in *. destruct (weights_split z W) as (rs & E & M). rewrite E.
  set (u := distinct (map Fin rs) ++ (if existsb aisnan z then [anan] else [])).
  assert (UN : NoDup u).
  { unfold u. destruct (existsb aisnan z) eqn:N; [|rewrite app_nil_r; apply distinct_nodup].
    apply (Permutation_NoDup (Permutation_app_comm [NaN] _)). cbn [app]. constructor; [|apply distinct_nodup]. intro I. apply distinct_mem in I. destruct I as (x & X & _). discriminate X. }
  assert (UI : forall v, In v u <-> In v z).
  { intro v. unfold u. rewrite in_app_iff. split.
    - intros [I|I]; [apply distinct_mem in I; destruct I as (x & -> & I); apply M, I|]. destruct (existsb aisnan z) eqn:N; [|contradiction]. destruct I as [<-|[]]. apply nan_in, N.
    - intro I. destruct (W v I) as [->|[r ->]]; [right; rewrite (proj2 (nan_in z) I); left; reflexivity|left; apply distinct_in, M, I]. }
  assert (K : (List.length u <= 2)%nat <-> at_most_two z).
  { split.
    - intro L. destruct u as [|a [|b [|c r]]]; [exists NaN, NaN|exists a, a|exists a, b|cbn in L; lia]; intros v I; apply UI in I; cbn [In] in I; intuition.
    - intros (a & b & H). assert (I : incl u [a; b]) by (intros v V; apply UI in V; destruct (H v V) as [->| ->]; cbn; auto). exact (NoDup_incl_length UN I). }
  destruct (Nat.leb (List.length u) 2) eqn:L; cbn [negb].
  - apply Nat.leb_le in L. split; [intros _; apply K, L|intros _].
    assert (T : exists tk, (if only then plotted_series1 lg norm clim e data else Ok (map (fun _ => true) data)) = Ok tk).
    { destruct only; [|eexists; reflexivity]. unfold plotted_series1, agg1. destruct norm; cbn [bind]; eexists; reflexivity. }
    destruct T as (tk & ->). cbn [bind]. eexists. reflexivity.
  - apply Nat.leb_gt in L. split; [intros [out Q]; discriminate Q|]. intro H. apply K in H. lia.
Qed.
Print Assumptions C76_weights_allowed.
Example C76_weights_ex : at_most_two (map snd [(Fin 1, Fin 2); (NaN, NaN); (Fin 3, Fin 2)]) /\ observed_weights (map snd [(Fin 1, Fin 2); (NaN, NaN); (Fin 3, Fin 2)]).
Proof.
  split; [exists (Fin 2), NaN|]; intros v I; cbn [map snd In] in I; destruct I as [<-|[<-|[<-|[]]]]; auto; right; eexists; reflexivity.
Qed.
(** A density needs sums or counts: any other aggregate is refused. *)
Theorem C76_density_of_other_aggregates :
  forall lg clim b g (data : list (XR * XR)), agg1 lg N1Density clim b (FOther g) data = Err ValueError.
Proof. reflexivity. Qed.

(* ------------------------------------------------------------------ C164: the log axes of a projection *)
Theorem C164_projection_axes :
  forall on_x only counts lx ly norm clim alim bx by_ data, observed_weights (map snd data) ->
  let '(_, ys, edges, (log_main, log_other)) := project_1d on_x only counts lx ly norm clim alim bx by_ data in
  edges = (if on_x then bx else by_) /\ log_main = (if on_x then lx else ly) /\ (ys = None <-> counts = true) /\
  (log_other = true <-> counts = false /\ on_x = true /\ ly = true /\ exists w, forall v, In v (map snd data) -> v = w).
Proof.
  intros on_x only counts lx ly norm clim alim bx by_ data W. unfold project_1d. cbv zeta iota.
  split; [reflexivity|]. split; [reflexivity|]. split; [destruct counts; split; congruence|].
  set (z := map snd data) in *. destruct (weights_split z W) as (rs & E & M). rewrite E.
  set (n := (List.length (distinct (map Fin rs)) + if existsb aisnan z then 1 else 0)%nat).
  assert (K : Nat.leb 2 n = false <-> exists w, forall v, In v z -> v = w).
  { rewrite Nat.leb_gt. unfold n. split.
    - intro L. destruct (existsb aisnan z) eqn:N.
      + exists NaN. intros v I. destruct (W v I) as [Q|[r ->]]; [exact Q|]. apply M in I. apply distinct_in in I. destruct (distinct (map Fin rs)); [contradiction|cbn in L; lia].
      + destruct (distinct (map Fin rs)) as [|a [|b r]] eqn:D; [exists NaN|exists a|cbn in L; lia]; intros v I;
          (destruct (W v I) as [->|[r' ->]]; [rewrite (proj2 (nan_in z) I) in N; discriminate N|]; apply M in I; apply distinct_in in I; rewrite D in I); cbn [In] in I; intuition congruence.
    - intros (w & H). assert (D : (List.length (distinct (map Fin rs)) <= 1)%nat).
      { pose proof (distinct_nodup rs) as ND. assert (I : incl (distinct (map Fin rs)) [w]) by (intros v V; apply distinct_mem in V; destruct V as (x & -> & V); left; symmetry; apply H, M, V). exact (NoDup_incl_length ND I). }
      destruct (existsb aisnan z) eqn:N; [|lia]. apply nan_in in N. specialize (H NaN N) as HN. subst w.
      destruct (distinct (map Fin rs)) as [|a r] eqn:Q; [cbn; lia|]. exfalso. assert (I : In a (distinct (map Fin rs))) by (rewrite Q; left; reflexivity).
      apply distinct_mem in I. destruct I as (x & -> & I). apply M in I. discriminate (H _ I). }
  destruct counts, on_x, ly, (Nat.leb 2 n) eqn:L; cbn [negb andb]; split; intro H; try discriminate H; try (destruct H as (? & ? & ? & ?); discriminate);
    try (destruct H as (_ & _ & _ & H); apply K in H; discriminate H); try reflexivity.
  repeat split. apply K. reflexivity.
Qed.
Print Assumptions C164_projection_axes.

(* ------------------------------------------------------------------ C01: what an Ion refuses *)
Theorem C01_ion_refusals :
  forall (data : frame XR) s,
  (f_cols data = [] \/ f_rows data = [] -> ion_set_data data s = Err ValueError) /\
  (f_cols data <> [] -> f_rows data <> [] ->
     (ion_set_data data s = Err KeyError <-> forall k, In k (f_cols data) -> snd k <> s) /\
     (ion_set_data data s = Ok tt <-> forall mc, In mc [("n", ""); ("v", "x"); ("v", "y"); ("v", "z"); ("w", "par"); ("w", "per")] -> In (fst mc, snd mc, s) (f_cols data)) /\
     (ion_set_data data s = Ok tt \/ ion_set_data data s = Err KeyError \/ ion_set_data data s = Err ValueError)).
Proof.
  intros data s. unfold ion_set_data, f_empty. split.
  - intros [-> | ->]; [reflexivity|]. destruct (f_cols data); reflexivity.
  - intros NC NR. destruct (f_cols data) as [|k0 ks] eqn:EC; [contradiction|]. destruct (f_rows data) as [|r0 rs]; [contradiction|].
    assert (L : has_label kS s (k0 :: ks) = true <-> exists k, In k (k0 :: ks) /\ snd k = s).
    { unfold has_label. rewrite existsb_exists. split; intros (k & I & Q); exists k; (split; [exact I|]); [apply String.eqb_eq, Q|apply String.eqb_eq; exact Q]. }
    assert (R : forallb (fun k => mem_key k (k0 :: ks)) (ion_required s) = true <->
      forall mc, In mc [("n", ""); ("v", "x"); ("v", "y"); ("v", "z"); ("w", "par"); ("w", "per")] -> In (fst mc, snd mc, s) (k0 :: ks)).
    { rewrite forallb_forall. unfold ion_required. split.
      - intros H mc I. apply mem_key_In, H. cbn [In] in *. destruct I as [<-|[<-|[<-|[<-|[<-|[<-|[]]]]]]]; auto 10.
      - intros H k I. apply mem_key_In. cbn [In] in I. destruct I as [<-|[<-|[<-|[<-|[<-|[<-|[]]]]]]].
        + apply (H ("n", "")); cbn; auto 10.
        + apply (H ("v", "x")); cbn; auto 10.
        + apply (H ("v", "y")); cbn; auto 10.
        + apply (H ("v", "z")); cbn; auto 10.
        + apply (H ("w", "par")); cbn; auto 10.
        + apply (H ("w", "per")); cbn; auto 10. }
    destruct (has_label kS s (k0 :: ks)) eqn:HL; cbn [negb].
    + destruct (proj1 L eq_refl) as (k & I & Q). destruct (forallb _ (ion_required s)); cbn [negb].
      * split; [split; [discriminate|intro H; exfalso; exact (H k I Q)]|]. split; [split; [intros _; apply R; reflexivity|reflexivity]|auto].
      * split; [split; [discriminate|intro H; exfalso; exact (H k I Q)]|]. split; [split; [discriminate|intro H; apply R in H; discriminate H]|auto].
    + split; [split; [intros _ k I Q; assert (X : false = true) by (apply L; exists k; auto); discriminate X|reflexivity]|]. split; [|auto].
      split; [discriminate|]. intro H. assert (X : false = true); [|discriminate X]. apply L. exists ("n", "", s). split; [apply (H ("n", "")); left; reflexivity|reflexivity].
Qed.
Print Assumptions C01_ion_refusals.

(* ------------------------------------------------------------------ C182: an Ion's own quantities *)
Open Scope R_scope.
(** Sound speed and anisotropy of one ion depend on its thermal speeds alone, once there is some density. *)
Theorem C182_sound_speed :
  forall k c s f r n w, positive k -> known s -> ion_cs (kx k) c s = Ok f ->
  r ("n", "", s) = Fin n -> 0 < n -> r ("w", c, s) = Fin w -> f r = Fin (Rabs w * sqrt (5 / 6)).
Proof.
  intros k c s f r n w P K H Hn N Hw. unfold ion_cs in H. rewrite ion_pth_ok, ion_rho_ok in H by exact K. cbn [bind] in H. injection H as <-.
  rewrite (pth_fun_fin k c s r n w Hn Hw), (rho_fun_fin k s r n Hn), fin_urho, fin_upth, fin_uv, fin_gamma.
  pose proof (Urho_pos k P) as U1. pose proof Upth_pos as U2. pose proof Uv_pos as U3. pose proof (mmp_pos k s P K) as U4.
  assert (U5 : 0 < Rrho k n s) by (unfold Rrho; apply Rmult_lt_0_compat; assumption).
  rewrite !fin_mul, fin_div, fin_mul by nra.
  replace (Rpth k n w s * Upth / (Rrho k n s * Urho k) * (5 / 3)) with ((w * Uv) * (w * Uv) * (5 / 6)) by (unfold Rpth; field; lra).
  assert (Q : 0 <= (w * Uv) * (w * Uv)) by nra.
  rewrite fin_sqrt by nra. rewrite fin_div by lra. f_equal. rewrite sqrt_mult by (assumption || lra). fold (Rsqr (w * Uv)). rewrite sqrt_Rsqr_abs, Rabs_mult, (Rabs_right Uv) by lra.
  field. lra.
Qed.
Print Assumptions C182_sound_speed.
Theorem C182_anisotropy :
  forall k s f r n par per, positive k -> known s -> ion_anisotropy (kx k) s = Ok f ->
  r ("n", "", s) = Fin n -> 0 < n -> r ("w", "par", s) = Fin par -> par <> 0 -> r ("w", "per", s) = Fin per -> f r = Fin ((per / par) ^ 2).
Proof.
  intros k s f r n par per P K H Hn N Hp NZ Hq. unfold ion_anisotropy in H. rewrite !ion_pth_ok in H by exact K. cbn [bind] in H. injection H as <-.
  rewrite (pth_fun_fin k "par" s r n par Hn Hp), (pth_fun_fin k "per" s r n per Hn Hq).
  pose proof (Urho_pos k P) as U1. pose proof Upth_pos as U2. pose proof Uv_pos as U3. pose proof (mmp_pos k s P K) as U4.
  assert (U5 : 0 < Rrho k n s) by (unfold Rrho; apply Rmult_lt_0_compat; assumption).
  assert (PZ : Rpth k n par s <> 0).
  { unfold Rpth. assert (0 < / Upth) by (apply Rinv_0_lt_compat, U2). assert (A1 : 1 / 2 / Upth <> 0) by (unfold Rdiv; nra).
    apply Rmult_integral_contrapositive_currified; [exact A1|]. apply Rmult_integral_contrapositive_currified; [|nra].
    apply Rmult_integral_contrapositive_currified; apply Rmult_integral_contrapositive_currified; lra. }
  unfold ainv. rewrite fin_a1, fin_div by exact PZ. unfold prod_strict. cbn [fold_right fold_left]. rewrite ?fin_a1, ?fin_mul. f_equal. unfold Rpth in *. field. split; [exact NZ|]. lra.
Qed.
Print Assumptions C182_anisotropy.
(** The names with known masses and charges. *)
Definition proton_names : list string := ["p"; "p1"; "p2"; "pm"; "p_bimax"].
Definition alpha_names : list string := ["a"; "a1"; "a2"; "a_bimax"].
Theorem C182_known_names :
  (forall s, known s <-> In s (proton_names ++ alpha_names ++ ["e"])) /\
  (forall k s, In s proton_names -> mmp k s = 1 /\ mass k s = c_mp k /\ zcharge s = 1) /\
  (forall k s, In s alpha_names -> mmp k s = c_ma_mp k /\ mass k s = c_ma k /\ zcharge s = 2) /\
  (forall k, mmp k "e" = c_me_mp k /\ mass k "e" = c_me k /\ zcharge "e" = -1).
Proof.
  split; [|split; [|split]].
  - intro s. unfold known, species_kind. split.
    + intros [x H]. destruct (mem_str s ["p"; "p1"; "p2"; "pm"; "p_bimax"]) eqn:E1; [apply mem_str_In in E1; apply in_or_app; left; exact E1|].
      destruct (mem_str s ["a"; "a1"; "a2"; "a_bimax"]) eqn:E2; [apply mem_str_In in E2; apply in_or_app; right; apply in_or_app; left; exact E2|].
      destruct (String.eqb s "e") eqn:E3; [apply String.eqb_eq in E3; subst s; apply in_or_app; right; apply in_or_app; right; left; reflexivity|discriminate H].
    + intro I. cbn [proton_names alpha_names app In] in I. repeat (destruct I as [<-|I]; [eexists; reflexivity|]). destruct I.
  - intros k s I. cbn [proton_names In] in I. repeat (destruct I as [<-|I]; [repeat split; reflexivity|]). destruct I.
  - intros k s I. cbn [alpha_names In] in I. repeat (destruct I as [<-|I]; [repeat split; reflexivity|]). destruct I.
  - intro k. repeat split; reflexivity.
Qed.
Print Assumptions C182_known_names.
(** An ion of any other name has no density, and no ion has a kinetic energy flux: the unit does not exist. *)
Theorem C182_refusals :
  forall (K : consts XR) c s, (~ In s (proton_names ++ alpha_names ++ ["e"]) ->
    ion_rho K s = Err KeyError /\ ion_pth K c s = Err KeyError /\ ion_temperature K c s = Err KeyError /\ ion_cs K c s = Err KeyError /\ ion_anisotropy K s = Err KeyError) /\
  (forall f, ion_kinetic_energy_flux K s <> Ok f).
Proof.
  intros K c s. split.
  - intro N. assert (Q : get_kind s = Err KeyError).
    { unfold get_kind. destruct (species_kind s) as [x|] eqn:E; [|reflexivity]. exfalso. apply N. apply C182_known_names. exists x. exact E. }
    unfold ion_anisotropy, ion_cs, ion_pth, ion_temperature, ion_rho. rewrite Q. repeat split.
  - intro f. unfold ion_kinetic_energy_flux. destruct (ion_rho K s); discriminate.
Qed.
Print Assumptions C182_refusals.
Example C182_ex : exists f, ion_cs (kx ex_k) "scalar" "p1" = Ok f /\ f ex_row = Fin (40 * sqrt (5 / 6)).
Proof.
  assert (H : exists f, ion_cs (kx ex_k) "scalar" "p1" = Ok f) by (eexists; reflexivity). destruct H as [f H]. exists f. split; [exact H|].
  assert (K : known "p1") by (eexists; reflexivity). assert (N : 0 < 20) by lra.
  rewrite (C182_sound_speed ex_k "scalar" "p1" f ex_row 20 40 ex_positive K H eq_refl N eq_refl), (Rabs_right 40) by lra. reflexivity.
Qed.
