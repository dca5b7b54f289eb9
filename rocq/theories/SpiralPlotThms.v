(** C198 (what an adaptive-mesh plot shows), C199 (its opacity and contours). *)
From Coq Require Import Reals List String Bool Arith ZArith Lra Lia Permutation Sorted.
From Verif Require Import Py PyStr Num Sort Activity ActivityThms FitFuncsThms Hist HistThms HistMoreThms Spiral SpiralThms HistPlot HistPlotThms Hist2DPlot Hist2DPlotThms SpiralPlot.
Import ListNotations.
Open Scope list_scope.
Open Scope R_scope.

(* ------------------------------------------------------------------ specification *)
(** v is at least lo and below hi *)
Definition from_to (lo hi : R) (v : XR) : bool := match v with Fin x => Rleb lo x && Rltb x hi | _ => false end.
(** the z-values given to the constructor for the rows whose coordinates (magnitudes on log axes) lie in the rectangle *)
Definition rows_in (lx ly : bool) (x y w h : R) (xs ys zs : list XR) : list XR :=
  map snd (filter (fun r => from_to x (x + w) (magnitude lx (fst (fst r))) && from_to y (y + h) (magnitude ly (snd (fst r))) && notnan (snd r))
                  (combine (combine xs ys) zs)).
(** initial bins: a positive number per axis, or real edges in order *)
Definition sane (b : axis_bins XR) : Prop := match b with Bins n => (0 < n)%nat | Edges l => exists e, l = map Fin e /\ ordered e end.
(** the value of a rectangle: the number of its rows, or what the aggregating function gives for them; by default their mean, or their number when all
    values given are the same *)
Definition value_of (f : fcn (T := XR)) (all rows : list XR) (v : XR) : Prop :=
  match f with
  | FCount => v = Fin (INR (List.length rows))
  | FOther g => v = g rows
  | FDefault => ((exists c, forall z, In z all -> z = Fin c) -> v = Fin (INR (List.length rows)))
                /\ ((exists a b, In (Fin a) all /\ In (Fin b) all /\ a <> b) -> forall rs, rows = map Fin rs -> v = Fin (ActivityThms.mean rs))
  end.
(** the z-values of all rows without a missing entry *)
Definition complete (r : XR * XR * XR) : bool := notnan (fst (fst r)) && notnan (snd (fst r)) && notnan (snd r).
Definition given (xs : list XR) (zs : option (list XR)) : list XR := match zs with Some z => z | None => map (fun _ => Fin 1) xs end.
Definition all_rows (xs ys zs : list XR) : list XR := map snd (filter complete (combine (combine xs ys) zs)).

(** Everything that can happen to a plot between two changes of its data, in any order. The stage says whether its mesh has been made since the data changed, and the groups
    since the mesh last changed. *)
Inductive stage := Stale | Meshed | Grouped.
Inductive life (s0 : splot XR) : stage -> splot XR -> Prop :=
| born : life s0 Stale s0
| meshed b s fuel m sched s' e : life s0 b s -> (forall l, Permutation (sched l) l) -> initialize fuel m sched s = Some (s', e) -> life s0 Meshed s'
| grouped b s s' : life s0 b s -> build_grouped s = Ok s' -> life s0 (match b with Stale => Stale | _ => Grouped end) s'
| limits b s lo hi : life s0 b s -> life s0 b (set_clim lo hi s)
| filters b s size dens s' : life s0 b s -> set_filter size dens s = Ok s' -> life s0 b s'.
(** A plot that has just got its data: from the constructor, or from set_data after any history. *)
Inductive started (lx ly : bool) (xs ys : list XR) (zs : option (list XR)) (s0 : splot XR) : Prop :=
| by_constructor nx ny : sane nx -> sane ny -> new_spiral lx ly xs ys zs nx ny = Ok s0 -> started lx ly xs ys zs s0
| by_set_data xs' ys' zs' s1 b s2 : started lx ly xs' ys' zs' s1 -> life s1 b s2 -> replace_data xs ys zs s2 = Ok s0 -> started lx ly xs ys zs s0.

(* ------------------------------------------------------------------ the mesh of a plot *)
Lemma widen_ordered e : ordered e -> e <> [] -> exists e', widen (map Fin e) = map Fin e' /\ ordered e'.
Proof.
  intros O N. destruct (largest_in e anan N) as (m & _ & I & B). rewrite (widen_fin e m I B). eexists. split; [reflexivity|].
  assert (RL : forall i, (S i < List.length e)%nat -> nth i (removelast e) 0 = nth i e 0).
  { clear. induction e as [|a e IH]; intros i L; [reflexivity|]. destruct e as [|b e]; [cbn in L; lia|]. change (removelast (a :: b :: e)) with (a :: removelast (b :: e)). destruct i; [reflexivity|]. cbn [nth]. apply IH. cbn [List.length] in *. lia. }
  assert (LR : List.length (removelast e) = (List.length e - 1)%nat) by (clear; induction e as [|a e IH]; [reflexivity|]; destruct e as [|b e]; [reflexivity|]; change (removelast (a :: b :: e)) with (a :: removelast (b :: e)); cbn [List.length] in *; lia).
  assert (LE : (0 < List.length e)%nat) by (destruct e; [congruence|cbn; lia]).
  intros i j L. rewrite app_length, LR in L. cbn [List.length] in L.
  assert (V : forall k, (k < List.length e)%nat -> nth k (removelast e ++ [widened m]) 0 = if Nat.eqb k (List.length e - 1) then widened m else nth k e 0).
  { intros k Lk. destruct (Nat.eqb k (List.length e - 1)) eqn:Q.
    - apply Nat.eqb_eq in Q. rewrite app_nth2 by lia. replace (k - List.length (removelast e))%nat with 0%nat by lia. reflexivity.
    - apply Nat.eqb_neq in Q. rewrite app_nth1 by lia. apply RL. lia. }
  rewrite !V by lia. pose proof (widened_gt m). destruct (Nat.eqb j (List.length e - 1)) eqn:Qj.
  - destruct (Nat.eqb i (List.length e - 1)); [lra|]. assert (nth i e 0 <= m) by (apply B, nth_In; lia). lra.
  - apply Nat.eqb_neq in Qj. destruct (Nat.eqb i (List.length e - 1)) eqn:Qi; [apply Nat.eqb_eq in Qi; lia|]. apply O. lia.
Qed.
Lemma edges_sane b d e : sane b -> initial_edges b d = Ok e -> exists r, e = map Fin r /\ ordered r.
Proof.
  intros S E. destruct b as [n|l]; cbn [initial_edges sane] in *.
  - destruct (finite_values d) as (l & EF & HF). destruct l as [|x l].
    + unfold default_edges in E. rewrite EF in E. discriminate E.
    + destruct (C87_default_edges_cover n d S) as (r & E1 & O & _); [exists x; apply HF; left; reflexivity|]. exists r. split; [congruence|exact O].
  - destruct S as (r & -> & O). unfold explicit_edges in E. destruct r as [|a r]; [discriminate E|]. cbn [map] in E. change (Fin a :: map Fin r) with (map Fin (a :: r)) in E.
    destruct (existsb aisnan (map Fin (a :: r))); [discriminate E|]. cbn [rmap bind fst] in E. apply ok_inj in E. subst e. apply widen_ordered; [exact O|discriminate].
Qed.
Record tidy (s0 : splot XR) (b : stage) (s : splot XR) : Prop := {
  ti_lx : sp_logx s = sp_logx s0; ti_ly : sp_logy s = sp_logy s0; ti_data : sp_data s = sp_data s0; ti_ex : sp_ex s = sp_ex s0; ti_ey : sp_ey s = sp_ey s0;
  ti_mesh : b <> Stale -> forall m, sp_mesh s = Some m -> forall cells zbin, sm_placed m = Some (cells, zbin) ->
    (exists fuel k, generate_mesh fuel k (sp_ex s0) (sp_ey s0) (points s0) = Ok (Some cells))
    /\ exists ws, Permutation ws (writes cells (points s0)) /\ zbin = run_writes (List.length (points s0)) ws;
  ti_cat : b <> Stale -> forall m cat, sp_mesh s = Some m -> sm_cat m = Some cat -> build_cat cat = Ok cat /\ exists cells, sm_placed m = Some (cells, cat);
  ti_group : b = Grouped -> exists m cat, sp_mesh s = Some m /\ sm_cat m = Some cat /\ sp_groups s = Some (cat, zvalues s0) }.
Lemma life_tidy s0 b s : life s0 b s -> tidy s0 b s.
Proof.
  intros H. induction H as [|b s fuel m sched s' e H IH PS E|b s s' H IH E|b s lo hi H IH|b s size dens s' H IH E].
  - split; try reflexivity; try congruence.
  - destruct IH as [A1 A2 A3 A4 A5 A6 A7 A8]. unfold initialize in E. assert (EP : points s = points s0) by (unfold points; rewrite A3; reflexivity). rewrite A4, A5, EP in E.
    destruct (generate_mesh fuel m (sp_ex s0) (sp_ey s0) (points s0)) as [[cells|]|e0] eqn:G; [| discriminate E |].
    + cbv zeta in E. set (zb := run_writes (List.length (points s0)) (sched (writes cells (points s0)))) in *.
      assert (Z : forall cells' zbin', Some (cells, zb) = Some (cells', zbin') ->
         (exists fuel k, generate_mesh fuel k (sp_ex s0) (sp_ey s0) (points s0) = Ok (Some cells')) /\ exists ws, Permutation ws (writes cells' (points s0)) /\ zbin' = run_writes (List.length (points s0)) ws).
      { intros cells' zbin' Q. injection Q as <- <-. split; [exists fuel, m; exact G|]. exists (sched (writes cells (points s0))). split; [apply PS|reflexivity]. }
      destruct (build_cat zb) as [cat|e1] eqn:BC.
      * assert (cat = zb) by (unfold build_cat in BC; destruct (existsb (Z.eqb (-9999)) zb); [discriminate|congruence]). subst cat.
        assert (s' = with_mesh s (mkMesh (Some (cells, zb)) (Some zb) None None)) by congruence. subst s'. split; cbn [sp_logx sp_logy sp_data sp_ex sp_ey sp_mesh with_mesh]; try assumption; try discriminate.
        -- intros _ m' Q. injection Q as <-. exact Z.
        -- intros _ m' cat Q. injection Q as <-. cbn [sm_cat sm_placed]. intro Q. injection Q as <-. split; [exact BC|eauto].
      * assert (s' = with_mesh s (mkMesh (Some (cells, zb)) None None None)) by congruence. subst s'. split; cbn [sp_logx sp_logy sp_data sp_ex sp_ey sp_mesh with_mesh]; try assumption; try discriminate.
        -- intros _ m' Q. injection Q as <-. exact Z.
        -- intros _ m' cat Q. injection Q as <-. discriminate.
    + assert (s' = with_mesh s (mkMesh None None None None)) by congruence. subst s'. split; cbn [sp_logx sp_logy sp_data sp_ex sp_ey sp_mesh with_mesh]; try assumption; try discriminate.
      -- intros _ m' Q. injection Q as <-. discriminate.
      -- intros _ m' cat Q. injection Q as <-. discriminate.
  - destruct IH as [A1 A2 A3 A4 A5 A6 A7 A8]. unfold build_grouped in E. destruct (sp_mesh s) as [m|] eqn:EM; [|discriminate E]. destruct (sm_cat m) as [cat|] eqn:EC; [|discriminate E].
    destruct (Nat.eqb (List.length cat) (List.length (zvalues s))); [|discriminate E]. apply ok_inj in E. subst s'. split; cbn [sp_logx sp_logy sp_data sp_ex sp_ey sp_mesh sp_groups]; try assumption.
    + destruct b; [congruence|intros _; apply A6; discriminate..].
    + destruct b; [congruence|intros _; apply A7; discriminate..].
    + intros _. exists m, cat. unfold zvalues. rewrite A3. auto.
  - destruct IH as [A1 A2 A3 A4 A5 A6 A7 A8]. split; cbn [set_clim sp_logx sp_logy sp_data sp_ex sp_ey sp_mesh sp_groups]; assumption.
  - destruct IH as [A1 A2 A3 A4 A5 A6 A7 A8]. unfold set_filter in E. destruct (sp_mesh s) as [m|] eqn:EM; [|discriminate E]. apply ok_inj in E. subst s'.
    split; cbn [with_mesh sp_logx sp_logy sp_data sp_ex sp_ey sp_mesh sp_groups]; try assumption.
    + intros B m' Q. injection Q as <-. cbn [sm_placed]. apply A6; [exact B|reflexivity].
    + intros B m' cat Q. injection Q as <-. cbn [sm_placed sm_cat]. apply A7; [exact B|reflexivity].
    + intro B. destruct (A8 B) as (m' & cat & Q1 & Q2 & Q3). injection Q1 as <-. exists (mkMesh (sm_placed m) (sm_cat m) size dens), cat. auto.
Qed.
Lemma started_inv lx ly xs ys zs s0 : started lx ly xs ys zs s0 -> sp_logx s0 = lx /\ sp_logy s0 = ly /\ set_data2 lx ly xs ys zs = Ok (sp_data s0)
  /\ exists ex ey, sp_ex s0 = map Fin ex /\ sp_ey s0 = map Fin ey /\ ordered ex /\ ordered ey.
Proof.
  intro H. induction H as [xs ys zs s0 nx ny Sx Sy E|xs ys zs s0 xs' ys' zs' s1 b s2 H IH L E].
  - unfold new_spiral in E. destruct (set_data2 lx ly xs ys zs) as [data|] eqn:SD; [|discriminate E]. cbn [bind] in E.
    destruct (initial_edges nx (map (fun r => fst (fst r)) data)) as [bx|] eqn:EX; [|discriminate E]. cbn [bind] in E. destruct (initial_edges ny (map (fun r => snd (fst r)) data)) as [by_|] eqn:EY; [|discriminate E]. cbn [bind] in E. apply ok_inj in E.
    destruct (edges_sane _ _ _ Sx EX) as (ex & -> & Ox). destruct (edges_sane _ _ _ Sy EY) as (ey & -> & Oy). subst s0. split; [reflexivity|]. split; [reflexivity|]. split; [reflexivity|]. exists ex, ey. auto.
  - destruct IH as (LX & LY & _ & ex & ey & E1 & E2 & Ox & Oy). destruct (life_tidy _ _ _ L) as [A1 A2 A3 A4 A5 _ _ _]. unfold replace_data in E. rewrite A1, A2, LX, LY in E.
    destruct (set_data2 lx ly xs ys zs) as [data|] eqn:SD; [|discriminate E]. cbn [bind] in E. apply ok_inj in E. subst s0. cbn [sp_logx sp_logy sp_data sp_ex sp_ey]. split; [reflexivity|]. split; [reflexivity|]. split; [reflexivity|].
    exists ex, ey. rewrite A4, A5. auto.
Qed.
Lemma agg_same f clim keep n cat (z : list XR) : spiral_agg (FOther (the_fcn f z)) clim keep n cat z = spiral_agg f clim keep n cat z.
Proof.
  unfold spiral_agg. unfold build_cat. destruct (existsb _ cat); [reflexivity|]. cbn [bind]. destruct (Nat.eqb (List.length cat) (List.length z)) eqn:L; [|reflexivity]. cbn [negb]. apply Nat.eqb_eq in L.
  destruct (negb (Nat.eqb (List.length keep) n)); [reflexivity|]. cbv zeta. do 2 f_equal. unfold agg_runner.
  assert (Q : map snd (combine (map (fun b => Some (Z.to_nat b)) cat) z) = z).
  { clear keep. revert z L. induction cat as [|c cat IH]; intros [|v z] L; try discriminate L; [reflexivity|]. cbn [map combine snd]. rewrite IH; [reflexivity|]. cbn in L. lia. }
  rewrite Q. reflexivity.
Qed.

Lemma combine_split_map {X Y} (l : list (X * Y)) : combine (map fst l) (map snd l) = l.
Proof. induction l as [|[a b] l IH]; [reflexivity|]. cbn [map combine fst snd]. rewrite IH. reflexivity. Qed.
Lemma drawn_cell lg lo hi v : from_to lo hi (coord lg v) = from_to (as_drawn lg lo) (as_drawn lg hi) (magnitude lg v).
Proof.
  destruct lg; [|reflexivity]. unfold coord, magnitude, as_drawn. destruct v as [x| | |].
  2:{ change (aabs PInf) with PInf. unfold log10. change (tln PInf) with PInf. rewrite fin_ofZ, fin_ln by lra. change (adiv PInf (Fin (ln 10))) with (xdiv PInf (Fin (ln 10))). unfold xdiv. destruct (Rltb (ln 10) 0); reflexivity. }
  2:{ change (aabs MInf) with PInf. unfold log10. change (tln PInf) with PInf. rewrite fin_ofZ, fin_ln by lra. change (adiv PInf (Fin (ln 10))) with (xdiv PInf (Fin (ln 10))). unfold xdiv. destruct (Rltb (ln 10) 0); reflexivity. }
  2:{ unfold log10. reflexivity. }
  rewrite fin_abs. pose proof (Rabs_pos x) as NN. destruct (Req_dec (Rabs x) 0) as [Z|NZ].
  - rewrite Z. unfold log10. assert (E : tln (Fin 0) = MInf) by (change (tln (Fin 0)) with (xln (Fin 0)); unfold xln; replace (Rltb 0 0) with false by (symmetry; apply Rltb_false; lra); reflexivity).
    assert (P : 0 < Rpower 10 lo) by apply exp_pos.
    replace (from_to (Rpower 10 lo) (Rpower 10 hi) (Fin 0)) with false; [|symmetry; unfold from_to; replace (Rleb (Rpower 10 lo) 0) with false by (symmetry; apply Rleb_false; lra); reflexivity].
    rewrite fin_ofZ, E, fin_ln by lra. change (adiv MInf (Fin (ln 10))) with (xdiv MInf (Fin (ln 10))). unfold xdiv. destruct (Rltb (ln 10) 0); reflexivity.
  - assert (P : 0 < Rabs x) by lra. unfold log10. rewrite fin_ofZ, !fin_ln by lra. pose proof ln10_pos as LP. rewrite fin_div by lra. unfold from_to.
    assert (E : Rabs x = Rpower 10 (ln (Rabs x) / ln 10)) by (unfold Rpower; replace (ln (Rabs x) / ln 10 * ln 10) with (ln (Rabs x)) by (field; lra); symmetry; apply exp_ln, P).
    set (y := ln (Rabs x) / ln 10) in *. rewrite E. f_equal; [apply Rleb_iff, power_mono|apply Rltb_iff, power_mono].
Qed.
Lemma delog_fin lg a : delog (T := XR) lg (Fin a) = Fin (as_drawn lg a).
Proof. destruct lg; [apply exp10_fin|reflexivity]. Qed.
Lemma notnan_coord lg v : v <> NaN -> coord lg v = NaN -> False.
Proof.
  intros N. destruct lg; [|exact N]. unfold coord. destruct v as [x| | |]; [| | |congruence].
  - rewrite fin_abs. unfold log10. destruct (Req_dec (Rabs x) 0) as [Z|NZ].
    + rewrite Z. assert (E : tln (Fin 0) = MInf) by (change (tln (Fin 0)) with (xln (Fin 0)); unfold xln; replace (Rltb 0 0) with false by (symmetry; apply Rltb_false; lra); reflexivity).
      rewrite fin_ofZ, E, fin_ln by lra. change (adiv MInf (Fin (ln 10))) with (xdiv MInf (Fin (ln 10))). unfold xdiv. destruct (Rltb (ln 10) 0); discriminate.
    + pose proof (Rabs_pos x). pose proof ln10_pos. rewrite fin_ofZ, !fin_ln by lra. rewrite fin_div by lra. discriminate.
  - change (aabs PInf) with PInf. unfold log10. change (tln PInf) with PInf. rewrite fin_ofZ, fin_ln by lra. change (adiv PInf (Fin (ln 10))) with (xdiv PInf (Fin (ln 10))). unfold xdiv. destruct (Rltb (ln 10) 0); discriminate.
  - change (aabs MInf) with PInf. unfold log10. change (tln PInf) with PInf. rewrite fin_ofZ, fin_ln by lra. change (adiv PInf (Fin (ln 10))) with (xdiv PInf (Fin (ln 10))). unfold xdiv. destruct (Rltb (ln 10) 0); discriminate.
Qed.
Lemma data_rows lx ly xs ys zs data : set_data2 lx ly xs ys zs = Ok data ->
  data = map (fun r => (coord lx (fst (fst r)), coord ly (snd (fst r)), snd r)) (filter complete (combine (combine xs ys) (given xs zs))).
Proof.
  unfold set_data2. cbv zeta. intro E.
  assert (EZ : match zs with Some z => z | None => map (fun _ => a1) xs end = given xs zs) by (destruct zs; [reflexivity|]; apply map_ext; intros; apply fin_a1). rewrite EZ in E. clear EZ.
  assert (EF : filter (fun r : XR * XR * XR => let '(x, y, z) := r in notnan x && notnan y && notnan z) (combine (combine xs ys) (given xs zs)) = filter complete (combine (combine xs ys) (given xs zs))) by (apply filter_ext; intros [[x y] z]; reflexivity).
  rewrite EF in E. destruct (filter complete (combine (combine xs ys) (given xs zs))) as [|r l]; [discriminate E|]. apply ok_inj in E. rewrite <- E. apply map_ext. intros [[x y] z]. reflexivity.
Qed.
Lemma set_data2_nonempty lx ly (xs ys : list XR) zs data : set_data2 lx ly xs ys zs = Ok data -> data <> [].
Proof.
  unfold set_data2. cbv zeta. intros E N. subst data. destruct (filter _ _) as [|r l]; [discriminate E|]. apply ok_inj in E. discriminate E.
Qed.
Lemma held_rows lx ly a b a' b' xs ys zs data : set_data2 lx ly xs ys zs = Ok data ->
  held (mk_box (Fin a) (Fin b) (Fin a') (Fin b')) (map fst data) (map snd data)
  = rows_in lx ly (as_drawn lx a) (as_drawn ly a') (as_drawn lx b - as_drawn lx a) (as_drawn ly b' - as_drawn ly a') xs ys (given xs zs).
Proof.
  intro E. apply data_rows in E. unfold held. rewrite combine_split_map. rewrite E. clear E data. unfold rows_in.
  replace (as_drawn lx a + (as_drawn lx b - as_drawn lx a)) with (as_drawn lx b) by lra. replace (as_drawn ly a' + (as_drawn ly b' - as_drawn ly a')) with (as_drawn ly b') by lra.
  induction (combine (combine xs ys) (given xs zs)) as [|[[x y] z] l IH]; [reflexivity|]. cbn [filter]. unfold complete at 1. cbn [fst snd].
  rewrite <- (drawn_cell lx a b x), <- (drawn_cell ly a' b' y).
  assert (H1 : notnan x = false -> from_to a b (coord lx x) = false) by (intro N; destruct x; try discriminate N; destruct lx; reflexivity).
  assert (H2 : notnan y = false -> from_to a' b' (coord ly y) = false) by (intro N; destruct y; try discriminate N; destruct ly; reflexivity).
  assert (HH : holds (mk_box (Fin a) (Fin b) (Fin a') (Fin b')) (coord lx x, coord ly y) = from_to a b (coord lx x) && from_to a' b' (coord ly y)).
  { unfold holds, from_to. destruct (coord lx x), (coord ly y); rewrite ?andb_assoc, ?andb_false_r; reflexivity. }
  destruct (notnan x) eqn:Nx; cbn [andb]; [|rewrite H1 by reflexivity; exact IH]. destruct (notnan y) eqn:Ny; cbn [andb]; [|rewrite H2, andb_false_r by reflexivity; exact IH].
  destruct (notnan z) eqn:Nz; cbn [andb]; [|rewrite andb_false_r; exact IH]. rewrite andb_true_r. cbn [map filter fst snd]. rewrite HH. destruct (from_to a b (coord lx x) && from_to a' b' (coord ly y)); [cbn [map snd]; f_equal|]; exact IH.
Qed.
Lemma filter_ok (s d : option (nat * nat)) (mesh : list (box XR)) zbin : mesh <> [] -> (forall b, In b zbin -> (0 <= b)%Z) -> exists tk, cell_filter s d mesh zbin = Ok tk /\ List.length tk = List.length mesh.
Proof.
  intros NE PZ. unfold cell_filter. cbv zeta. assert (NA : map area mesh <> []) by (destruct mesh; [congruence|discriminate]).
  assert (S : exists tk, match s with None => Ok (map (fun _ => true) (map area mesh)) | Some q => match map area mesh with [] => Err IndexError | _ => Ok (map (fun a => altb a (quantile (map area mesh) q)) (map area mesh)) end end = Ok tk /\ List.length tk = List.length mesh).
  { destruct s as [q|]; [destruct (map area mesh) as [|a0 l] eqn:Q; [congruence|]; rewrite <- Q|]; eexists; (split; [reflexivity|]); rewrite !map_length; reflexivity. }
  destruct S as (tk & -> & LT). cbn [bind]. destruct d as [q|]; [|eauto]. unfold bincount.
  assert (B : existsb (fun b => Z.ltb b 0) zbin = false) by (apply not_true_is_false; intro X; apply existsb_exists in X; destruct X as [b [I X]]; apply Z.ltb_lt in X; specialize (PZ b I); lia).
  rewrite B. cbn [bind]. destruct (map area mesh) as [|a0 l] eqn:Q; [congruence|]. rewrite <- Q. eexists. split; [reflexivity|]. rewrite map_length, combine_length, map_length, combine_length, !map_length, seq_length. rewrite LT. lia.
Qed.
Lemma mesh_nonempty fuel k ex ey data mesh : generate_mesh fuel k (map Fin ex) (map Fin ey) data = Ok (Some mesh) -> ordered ex -> ordered ey -> data <> [] -> (forall p, In p data -> region ex ey p) -> mesh <> [].
Proof.
  intros G Ox Oy ND AR. destruct data as [|p data]; [congruence|]. destruct (proj1 (C84_cells_partition_region _ _ _ _ _ _ Ox Oy G p) (AR p (or_introl eq_refl))) as (i & (c & N & _) & _). destruct mesh; [destruct i; discriminate|discriminate].
Qed.
Lemma classic_region ex ey p : region ex ey p \/ ~ region ex ey p.
Proof.
  unfold region. destruct p as [[x| | |] [y| | |]]; try (right; intros (? & ? & Q & _); discriminate Q).
  destruct (Rle_dec (nth 0 ex 0) x) as [A|A]; [|right; intros (u & v & Q & B & _); injection Q as -> ->; lra].
  destruct (Rlt_dec x (nth (nbin ex) ex 0)) as [B|B]; [|right; intros (u & v & Q & C & _); injection Q as -> ->; lra].
  destruct (Rle_dec (nth 0 ey 0) y) as [C|C]; [|right; intros (u & v & Q & _ & D); injection Q as -> ->; lra].
  destruct (Rlt_dec y (nth (nbin ey) ey 0)) as [D|D]; [|right; intros (u & v & Q & _ & E); injection Q as -> ->; lra].
  left. exists x, y. auto.
Qed.
Lemma all_inside fuel k ex ey data mesh ws : generate_mesh fuel k (map Fin ex) (map Fin ey) data = Ok (Some mesh) -> ordered ex -> ordered ey -> Permutation ws (writes mesh data) ->
  build_cat (run_writes (List.length data) ws) = Ok (run_writes (List.length data) ws) -> forall p, In p data -> region ex ey p.
Proof.
  intros G Ox Oy P B p I. destruct (classic_region ex ey p) as [R|N]; [exact R|]. exfalso. rewrite (proj2 (C127_every_datum_must_be_inside _ _ _ _ _ _ _ Ox Oy G P)) in B by eauto. discriminate B.
Qed.
(* ------------------------------------------------------------------ cells lie the right way round *)
Definition upright (c : box XR) : Prop := exists a b a' b', c = mk_box (Fin a) (Fin b) (Fin a') (Fin b') /\ a <= b /\ a' <= b'.
Lemma refine_forall (P : box XR -> Prop) m data : (forall c, P c -> Forall P (split_cell c)) -> forall fuel done active out,
  Forall P done -> Forall P active -> refine fuel m data done active = Some out -> Forall P out.
Proof.
  intro SP. assert (FP : forall q l, Forall P l -> Forall P (filter q l)) by (intros q l F; rewrite Forall_forall in *; intros c I; apply filter_In in I; apply F, I).
  assert (MP : forall l, Forall P l -> Forall P (flat_map split_cell l)) by (intros l F; induction F as [|c l Pc F IH]; [constructor|]; cbn [flat_map]; apply Forall_app; auto).
  induction fuel as [|fuel IH]; intros done active out Pd Pa E; cbn [refine] in E.
  - destruct (filter (overfull m data) active); [|discriminate E]. injection E as <-. apply Forall_app. auto.
  - destruct (filter (overfull m data) active) as [|c big] eqn:F; [injection E as <-; apply Forall_app; auto|]. rewrite <- F in E. apply IH in E; [exact E| |].
    + apply Forall_app. split; [exact Pd|apply FP, Pa].
    + apply MP, FP, Pa.
Qed.
Lemma cells_upright fuel k ex ey data mesh : generate_mesh fuel k (map Fin ex) (map Fin ey) data = Ok (Some mesh) -> ordered ex -> ordered ey -> Forall upright mesh.
Proof.
  intros G Ox Oy. destruct (generate_inv _ _ _ _ _ _ G) as (cells & -> & R & _). eapply refine_forall; [|apply Forall_nil| |exact R].
  - intros c (a & b & a' & b' & -> & H & H'). unfold split_cell. cbn [bx0 bx1 by0 by1]. rewrite !half_fin. repeat constructor; do 4 eexists; (split; [reflexivity|lra]).
  - rewrite initial_cells. apply Forall_forall. intros c I. apply in_map_iff in I as ([i j] & <- & I). apply in_grid in I. unfold cell0. cbn [fst snd] in *. destruct I as [Li Lj]. unfold nbin in *.
    do 4 eexists. split; [reflexivity|]. split; [apply Ox|apply Oy]; lia.
Qed.
Lemma drawn_le lg a b : a <= b -> as_drawn lg a <= as_drawn lg b.
Proof. intros [L|E]; [|subst; lra]. destruct lg; [|unfold as_drawn; lra]. unfold as_drawn. left. exact (proj1 (power_mono a b) L). Qed.

(* ------------------------------------------------------------------ a plot whose groups are up to date *)
Lemma fresh lx ly xs ys zs s0 s : started lx ly xs ys zs s0 -> life s0 Grouped s ->
  exists ex ey m cells zbin keep fuel k, sp_mesh s = Some m /\ sm_placed m = Some (cells, zbin) /\ cell_filter (sm_size m) (sm_dens m) cells zbin = Ok keep /\ List.length keep = List.length cells
  /\ ordered ex /\ ordered ey /\ generate_mesh fuel k (map Fin ex) (map Fin ey) (map fst (sp_data s0)) = Ok (Some cells) /\ (forall p, In p (map fst (sp_data s0)) -> region ex ey p)
  /\ sp_logx s = lx /\ sp_logy s = ly /\ set_data2 lx ly xs ys zs = Ok (sp_data s0)
  /\ forall f, exists t, agg f s = Ok t /\ List.length t = List.length cells
  /\ forall i c, nth_error cells i = Some c -> let rows := held c (map fst (sp_data s0)) (map snd (sp_data s0)) in
    (nth i keep false = true -> rows <> [] -> inlim (sp_clim s) (Fin (INR (tally notnan rows))) ->
       nth_error t i = Some (match f with FCount => Fin (INR (tally notnan rows)) | FOther g => g rows | FDefault => the_fcn FDefault (map snd (sp_data s0)) rows end))
    /\ (nth i keep false = false \/ rows = [] \/ ~ inlim (sp_clim s) (Fin (INR (tally notnan rows))) -> nth_error t i = Some NaN).
Proof.
  intros ST L. destruct (started_inv _ _ _ _ _ _ ST) as (LX & LY & SD & ex & ey & EEX & EEY & Ox & Oy). destruct (life_tidy _ _ _ L) as [A1 A2 A3 A4 A5 A6 A7 A8].
  destruct (A8 eq_refl) as (m & cat & EM & EC & EG). assert (NS : Grouped <> Stale) by discriminate. destruct (A7 NS _ _ EM EC) as (BC & cells & PL). destruct (A6 NS _ EM _ _ PL) as ((fuel & k & G) & ws & P & EZ). subst cat.
  remember (sp_data s0) as data eqn:ED0. assert (ED : sp_data s0 = data) by congruence. assert (EP : points s0 = map fst data) by (unfold points; rewrite ED; reflexivity).
  rewrite EEX, EEY, EP in *.
  assert (AR := all_inside _ _ _ _ _ _ _ G Ox Oy P BC).
  assert (ND : map fst data <> []) by (apply set_data2_nonempty in SD; destruct data; [congruence|discriminate]).
  assert (NM := mesh_nonempty _ _ _ _ _ _ G Ox Oy ND AR).
  assert (PZ : forall b, In b (run_writes (List.length (map fst data)) ws) -> (0 <= b)%Z).
  { assert (F := C84_bin_numbers _ _ _ _ _ _ _ Ox Oy G P). clear - F AR. revert F AR. generalize (run_writes (List.length (map fst data)) ws). generalize (map fst data). intros l zb F AR b I. induction F as [|p z l zb [U _] F IH]; [destruct I|]. destruct I as [<-|I]; [|apply IH; [intros; apply AR; right; assumption|exact I]]. destruct (U (AR p (or_introl eq_refl))) as (i & c & -> & _). lia. }
  destruct (filter_ok (sm_size m) (sm_dens m) cells _ NM PZ) as (keep & EK & LK).
  exists ex, ey, m, cells, (run_writes (List.length (map fst data)) ws), keep, fuel, k. split; [exact EM|]. split; [exact PL|]. split; [exact EK|]. split; [exact LK|]. split; [exact Ox|]. split; [exact Oy|]. split; [exact G|]. split; [exact AR|].
  split; [congruence|]. split; [congruence|]. split; [exact SD|].
  intro f. destruct (C128_cell_values _ _ _ _ _ _ _ (map snd data) f (sp_clim s) keep Ox Oy G P AR) as (t & ET & LT & HT); [rewrite !map_length; reflexivity|exact LK|].
  exists t. split; [|split; [exact LT|exact HT]]. unfold agg. rewrite EG, EM, PL, EK. cbn [bind]. unfold zvalues. rewrite A3, ED, agg_same. exact ET.
Qed.
Lemma distinct_same (l : list XR) c : l <> [] -> (forall z, In z l -> z = Fin c) -> List.length (distinct (filter notnan l)) = 1%nat.
Proof.
  intros N H. assert (F : filter notnan l = l) by (clear N; induction l as [|a l IH]; [reflexivity|]; cbn [filter]; rewrite (H a (or_introl eq_refl)) at 1; change (notnan (Fin c)) with true; cbn iota; f_equal; apply IH; intros; apply H; right; assumption). rewrite F. clear F.
  induction l as [|a l IH]; [congruence|]. rewrite (H a (or_introl eq_refl)). destruct l as [|b l]; [reflexivity|]. assert (EB := H b (or_intror (or_introl eq_refl))). subst b. cbn [distinct existsb]. rewrite fin_eqb. replace (Reqb c c) with true by (symmetry; apply Reqb_true; reflexivity). cbn [orb]. cbn iota. apply IH; [discriminate|]. intros z I. apply H. right. exact I.
Qed.
Lemma rows_present lx ly x y w h xs ys zs : tally notnan (rows_in lx ly x y w h xs ys zs) = List.length (rows_in lx ly x y w h xs ys zs).
Proof.
  unfold rows_in, tally. rewrite map_length. set (p := fun r : XR * XR * XR => _ && _ && _). rewrite <- (map_length snd). f_equal.
  assert (F : forall z, In z (map snd (filter p (combine (combine xs ys) zs))) -> notnan z = true) by (intros z I; apply in_map_iff in I as (r & <- & I); apply filter_In in I as [_ I]; unfold p in I; apply andb_prop in I; apply I).
  revert F. generalize (map snd (filter p (combine (combine xs ys) zs))). clear. induction l as [|a l IH]; intro F; [reflexivity|]. cbn [filter]. rewrite (F a (or_introl eq_refl)). f_equal. apply IH. intros; apply F; right; assumption.
Qed.
Lemma value_spec lx ly xs ys zs data x y w h f : set_data2 lx ly xs ys zs = Ok data -> let rows := rows_in lx ly x y w h xs ys (given xs zs) in rows <> [] ->
  value_of f (all_rows xs ys (given xs zs)) rows (match f with FCount => Fin (INR (tally notnan rows)) | FOther g => g rows | FDefault => the_fcn FDefault (map snd data) rows end).
Proof.
  intros SD rows NE. pose proof (set_data2_nonempty _ _ _ _ _ _ SD) as ND. apply data_rows in SD.
  assert (EA : map snd data = all_rows xs ys (given xs zs)) by (rewrite SD; unfold all_rows; rewrite map_map; apply map_ext; reflexivity).
  assert (NA : all_rows xs ys (given xs zs) <> []) by (rewrite <- EA; destruct data; [congruence|discriminate]).
  rewrite EA. set (all := all_rows xs ys (given xs zs)) in *. destruct f as [| |g]; cbn [value_of]; [|unfold rows; rewrite rows_present; reflexivity|reflexivity]. split.
  - intros (c & H). unfold the_fcn. rewrite (distinct_same all c NA H). cbn [Nat.eqb]. unfold count, ofnat. rewrite fin_ofZ, <- INR_IZR_INZ. change (List.length (filter notnan rows)) with (tally notnan rows). unfold rows. rewrite rows_present. reflexivity.
  - intros (a & b & Ia & Ib & N) rs ER. unfold the_fcn.
    assert (D : Nat.eqb (List.length (distinct (filter notnan all))) 1 = false).
    { apply Nat.eqb_neq. intro Q. assert (Da : In (Fin a) (distinct (filter notnan all))) by (apply distinct_mem_any, filter_In; auto). assert (Db : In (Fin b) (distinct (filter notnan all))) by (apply distinct_mem_any, filter_In; auto).
      destruct (distinct (filter notnan all)) as [|u [|v l]]; [discriminate Q| |discriminate Q]. destruct Da as [-> |[]]. destruct Db as [E|[]]. congruence. }
    rewrite D, ER. replace (map Fin rs) with (map cell (map Some rs)) by (rewrite map_map; reflexivity). rewrite mean_cells, present_somes. destruct rs; [exfalso; apply NE; rewrite ER; reflexivity|reflexivity].
Qed.
(** C198: in every state whose groups are up to date, whatever happened before, the plot has one rectangle per cell, and each shows the aggregate of exactly
    the rows given to the constructor whose coordinates (magnitudes on log axes) lie in it as drawn: at its lower or left side or beyond, short of its upper and right
    side. It is blank if there are none, the cell is filtered out or their number is outside the limits. *)
Theorem C198_rectangles_show_their_rows : forall lx ly xs ys zs s0 s f, started lx ly xs ys zs s0 -> life s0 Grouped s ->
  exists patches m cells zbin keep, draw f s = Ok patches /\ sp_mesh s = Some m /\ sm_placed m = Some (cells, zbin) /\ cell_filter (sm_size m) (sm_dens m) cells zbin = Ok keep
  /\ List.length patches = List.length cells /\ List.length keep = List.length cells
  /\ forall i p, nth_error patches i = Some p -> exists x y w h, pt_x p = Fin x /\ pt_y p = Fin y /\ pt_w p = Fin w /\ pt_h p = Fin h /\ 0 <= w /\ 0 <= h
     /\ let rows := rows_in lx ly x y w h xs ys (given xs zs) in
        (nth i keep false = true -> rows <> [] -> inlim (sp_clim s) (Fin (INR (List.length rows))) -> exists v, value_of f (all_rows xs ys (given xs zs)) rows v /\ shows v (pt_v p))
        /\ (nth i keep false = false \/ rows = [] \/ ~ inlim (sp_clim s) (Fin (INR (List.length rows))) -> pt_v p = None).
Proof.
  intros lx ly xs ys zs s0 s f E L. destruct (fresh _ _ _ _ _ _ _ E L) as (ex & ey & m & cells & zbin & keep & fuel & k & EM & PL & EK & LK & Ox & Oy & G & AR & LX & LY & SD & H).
  destruct (H f) as (t & ET & LT & HT). assert (UP := cells_upright _ _ _ _ _ _ G Ox Oy). rewrite Forall_forall in UP.
  assert (CO : cells_of s = cells) by (unfold cells_of; rewrite EM, PL; reflexivity).
  exists (map (fun cv => patch_of s (fst cv) (snd cv)) (combine cells t)), m, cells, zbin, keep. split; [unfold draw; rewrite ET; cbn [bind]; rewrite CO, LT, Nat.eqb_refl; reflexivity|].
  split; [exact EM|]. split; [exact PL|]. split; [exact EK|]. split; [rewrite map_length, combine_length, LT; apply Nat.min_id|]. split; [exact LK|].
  intros i p N. rewrite nth_error_map in N. destruct (nth_error (combine cells t) i) as [[c v]|] eqn:Q; [|discriminate N]. cbn [option_map fst snd] in N. injection N as <-.
  assert (Nc : nth_error cells i = Some c /\ nth_error t i = Some v).
  { clear - Q LT. revert t i LT Q. induction cells as [|c0 l IH]; intros [|v0 t] [|i] LT Q; try discriminate; cbn in *; [injection Q as -> ->; auto|apply IH; [lia|exact Q]]. }
  destruct Nc as [Nc Nt]. destruct (UP c (nth_error_In _ _ Nc)) as (a & b & a' & b' & -> & Lab & Lab').
  exists (as_drawn lx a), (as_drawn ly a'), (as_drawn lx b - as_drawn lx a), (as_drawn ly b' - as_drawn ly a').
  unfold patch_of. cbn [pt_x pt_y pt_w pt_h pt_v bx0 bx1 by0 by1]. rewrite LX, LY, !delog_fin. rewrite !fin_sub. pose proof (drawn_le lx _ _ Lab). pose proof (drawn_le ly _ _ Lab').
  split; [reflexivity|]. split; [reflexivity|]. split; [reflexivity|]. split; [reflexivity|]. split; [lra|]. split; [lra|]. cbv zeta.
  specialize (HT i _ Nc). cbv zeta in HT. rewrite (held_rows lx ly a b a' b' xs ys zs _ SD) in HT. rewrite rows_present in HT. destruct HT as [T1 T2]. split.
  - intros K NE IL. specialize (T1 K NE IL). rewrite Nt in T1. eexists. split; [|apply masked_shows].
    assert (EV : v = match f with FCount => Fin (INR (tally notnan (rows_in lx ly (as_drawn lx a) (as_drawn ly a') (as_drawn lx b - as_drawn lx a) (as_drawn ly b' - as_drawn ly a') xs ys (given xs zs)))) | FOther g => g (rows_in lx ly (as_drawn lx a) (as_drawn ly a') (as_drawn lx b - as_drawn lx a) (as_drawn ly b' - as_drawn ly a') xs ys (given xs zs)) | FDefault => the_fcn FDefault (map snd (sp_data s0)) (rows_in lx ly (as_drawn lx a) (as_drawn ly a') (as_drawn lx b - as_drawn lx a) (as_drawn ly b' - as_drawn ly a') xs ys (given xs zs)) end) by (rewrite rows_present; congruence).
    rewrite EV. exact (value_spec lx ly xs ys zs _ _ _ _ _ f SD NE).
  - intro D. specialize (T2 D). rewrite Nt in T2. assert (v = NaN) by congruence. subst v. reflexivity.
Qed.
(** C198: every complete row lies in exactly one rectangle as drawn. *)
Theorem C198_every_row_is_drawn_once : forall lx ly xs ys zs s0 s f patches, started lx ly xs ys zs s0 -> life s0 Grouped s -> draw f s = Ok patches ->
  forall x y z, In (x, y, z) (combine (combine xs ys) (given xs zs)) -> complete (x, y, z) = true ->
  exists! i, exists p a b w h, nth_error patches i = Some p /\ pt_x p = Fin a /\ pt_y p = Fin b /\ pt_w p = Fin w /\ pt_h p = Fin h /\ from_to a (a + w) (magnitude lx x) = true /\ from_to b (b + h) (magnitude ly y) = true.
Proof.
  intros lx ly xs ys zs s0 s f patches E L ED x y z I US. destruct (fresh _ _ _ _ _ _ _ E L) as (ex & ey & m & cells & zbin & keep & fuel & k & EM & PL & EK & LK & Ox & Oy & G & AR & LX & LY & SD & H).
  destruct (H f) as (t & ET & LT & _). assert (UP := cells_upright _ _ _ _ _ _ G Ox Oy). rewrite Forall_forall in UP.
  assert (CO : cells_of s = cells) by (unfold cells_of; rewrite EM, PL; reflexivity). unfold draw in ED. rewrite ET in ED. cbn [bind] in ED. rewrite CO, LT, Nat.eqb_refl in ED. apply ok_inj in ED. subst patches.
  assert (IP : In (coord lx x, coord ly y) (map fst (sp_data s0))).
  { rewrite (data_rows _ _ _ _ _ _ SD). rewrite map_map. apply in_map_iff. exists (x, y, z). split; [reflexivity|]. apply filter_In. split; assumption. }
  assert (ST : forall i, (exists p a b w h, nth_error (map (fun cv => patch_of s (fst cv) (snd cv)) (combine cells t)) i = Some p /\ pt_x p = Fin a /\ pt_y p = Fin b /\ pt_w p = Fin w /\ pt_h p = Fin h /\ from_to a (a + w) (magnitude lx x) = true /\ from_to b (b + h) (magnitude ly y) = true)
     <-> exists c, nth_error cells i = Some c /\ inside c (coord lx x, coord ly y)).
  { intro i. split.
    - intros (p & a & b & w & h & N & Ea & Eb & Ew & Eh & F1 & F2). rewrite nth_error_map in N. destruct (nth_error (combine cells t) i) as [[c v]|] eqn:Q; [|discriminate N]. cbn [option_map fst snd] in N. injection N as <-.
      assert (Nc : nth_error cells i = Some c).
      { clear - Q LT. revert t i LT Q. induction cells as [|c0 l IH]; intros [|v0 t] [|i] LT Q; try discriminate; cbn in *; [congruence|apply (IH t); [lia|exact Q]]. }
      destruct (UP c (nth_error_In _ _ Nc)) as (c0 & c1 & d0 & d1 & -> & _ & _). exists (mk_box (Fin c0) (Fin c1) (Fin d0) (Fin d1)). split; [exact Nc|].
      unfold patch_of in *. cbn [pt_x pt_y pt_w pt_h bx0 bx1 by0 by1] in *. rewrite LX, ?LY, !delog_fin, ?fin_sub in *. assert (a = as_drawn lx c0) by congruence. assert (b = as_drawn ly d0) by congruence. assert (w = as_drawn lx c1 - as_drawn lx c0) by congruence. assert (h = as_drawn ly d1 - as_drawn ly d0) by congruence. subst a b w h.
      replace (as_drawn lx c0 + (as_drawn lx c1 - as_drawn lx c0)) with (as_drawn lx c1) in F1 by lra. replace (as_drawn ly d0 + (as_drawn ly d1 - as_drawn ly d0)) with (as_drawn ly d1) in F2 by lra.
      rewrite <- drawn_cell in F1, F2. unfold from_to in F1, F2. destruct (coord lx x) as [u| | |]; try discriminate F1. destruct (coord ly y) as [v'| | |]; try discriminate F2.
      apply andb_prop in F1 as [F1 F1']. apply andb_prop in F2 as [F2 F2']. rewrite Rleb_true in F1, F2. rewrite Rltb_true in F1', F2'. do 6 eexists. split; [reflexivity|]. split; [reflexivity|]. lra.
    - intros (c & Nc & a & b & a' & b' & u & v & -> & EQ & B1 & B2).
      assert (NV : exists v0, nth_error t i = Some v0) by (destruct (nth_error t i) eqn:Q; [eauto|apply nth_error_None in Q; assert (i < List.length cells)%nat by (apply nth_error_Some; congruence); lia]). destruct NV as (v0 & NV).
      assert (NP : nth_error (combine cells t) i = Some (mk_box (Fin a) (Fin b) (Fin a') (Fin b'), v0)).
      { clear - Nc NV. revert t i Nc NV. induction cells as [|c0 l IH]; intros [|v1 t] [|i] Nc NV; try discriminate; cbn in *; [congruence|apply IH; assumption]. }
      exists (patch_of s (mk_box (Fin a) (Fin b) (Fin a') (Fin b')) v0), (as_drawn lx a), (as_drawn ly a'), (as_drawn lx b - as_drawn lx a), (as_drawn ly b' - as_drawn ly a'). split; [rewrite nth_error_map, NP; reflexivity|].
      unfold patch_of. cbn [pt_x pt_y pt_w pt_h bx0 bx1 by0 by1]. rewrite LX, LY, !delog_fin, !fin_sub. split; [reflexivity|]. split; [reflexivity|]. split; [reflexivity|]. split; [reflexivity|].
      replace (as_drawn lx a + (as_drawn lx b - as_drawn lx a)) with (as_drawn lx b) by lra. replace (as_drawn ly a' + (as_drawn ly b' - as_drawn ly a')) with (as_drawn ly b') by lra. rewrite <- !drawn_cell.
      assert (coord lx x = Fin u) by congruence. assert (coord ly y = Fin v) by congruence. rewrite H0, H1. unfold from_to. split; (apply andb_true_intro; split; [apply Rleb_true|apply Rltb_true]; lra). }
  destruct (proj1 (C84_cells_partition_region _ _ _ _ _ _ Ox Oy G _) (AR _ IP)) as (i & HI & U). exists i. split; [apply ST, HI|]. intros j HJ. apply U, ST, HJ.
Qed.
(** C198: nothing is drawn, and nothing aggregated, before the groups exist. *)
Theorem C198_refused_before_grouping : forall lx ly xs ys zs nx ny s0 f name, new_spiral lx ly xs ys zs nx ny = Ok s0 ->
  agg f s0 = Err AttributeError /\ draw f s0 = Err AttributeError /\ build_grouped s0 = Err AttributeError /\ (forall size dens, set_filter size dens s0 = Err AttributeError) /\ (In name ["rbf"; "grid"; "tricontour"]%string -> contour_points name f s0 = Err AttributeError)
  /\ forall fuel m sched s e, initialize fuel m sched s0 = Some (s, e) -> agg f s = Err AttributeError.
Proof.
  intros lx ly xs ys zs nx ny s0 f name E. unfold new_spiral in E. destruct (set_data2 lx ly xs ys zs) as [data|]; [|discriminate E]. cbn [bind] in E.
  destruct (initial_edges nx _) as [bx|]; [|discriminate E]. cbn [bind] in E. destruct (initial_edges ny _) as [by_|]; [|discriminate E]. cbn [bind] in E. apply ok_inj in E. subst s0.
  split; [reflexivity|]. split; [reflexivity|]. split; [reflexivity|]. split; [reflexivity|]. split; [intros [<-|[<-|[<-|[]]]]; reflexivity|].
  intros fuel m sched s e I. unfold initialize in I. destruct (generate_mesh _ _ _ _ _) as [[cells|]|]; [|discriminate I|].
  - cbv zeta in I. destruct (build_cat _); (assert (Q := f_equal (fun o => match o with Some x => fst x | None => s end) I); cbn [fst] in Q; subst s; reflexivity).
  - assert (Q := f_equal (fun o => match o with Some x => fst x | None => s end) I); cbn [fst] in Q; subst s; reflexivity.
Qed.
(** C198: with a number of initial bins per axis, making the mesh succeeds (if it ends) exactly when the coordinates of all complete rows are finite as plotted (no infinity,
    no zero on a log axis); then the groups can be built. Otherwise it is refused. *)
Definition plottable (lg : bool) (v : XR) : Prop := exists x, v = Fin x /\ (lg = true -> x <> 0).
Lemma plottable_coord lg v : plottable lg v <-> exists x, coord lg v = Fin x.
Proof.
  destruct lg; cbn [coord plottable].
  - split.
    + intros (x & -> & N). specialize (N eq_refl). rewrite fin_abs. unfold log10. assert (P := Rabs_pos_lt x N). rewrite fin_ofZ, !fin_ln by lra. pose proof ln10_pos. rewrite fin_div by lra. eauto.
    + intros (u & E). destruct v as [x| | |].
      * exists x. split; [reflexivity|]. intros _ ->. rewrite fin_abs, Rabs_R0 in E. unfold log10 in E. assert (Q : tln (Fin 0) = MInf) by (change (tln (Fin 0)) with (xln (Fin 0)); unfold xln; replace (Rltb 0 0) with false by (symmetry; apply Rltb_false; lra); reflexivity).
        rewrite fin_ofZ, Q, fin_ln in E by lra. change (adiv MInf (Fin (ln 10))) with (xdiv MInf (Fin (ln 10))) in E. unfold xdiv in E. destruct (Rltb (ln 10) 0); discriminate E.
      * change (aabs PInf) with PInf in E. unfold log10 in E. change (tln PInf) with PInf in E. rewrite fin_ofZ, fin_ln in E by lra. change (adiv PInf (Fin (ln 10))) with (xdiv PInf (Fin (ln 10))) in E. unfold xdiv in E. destruct (Rltb (ln 10) 0); discriminate E.
      * change (aabs MInf) with PInf in E. unfold log10 in E. change (tln PInf) with PInf in E. rewrite fin_ofZ, fin_ln in E by lra. change (adiv PInf (Fin (ln 10))) with (xdiv PInf (Fin (ln 10))) in E. unfold xdiv in E. destruct (Rltb (ln 10) 0); discriminate E.
      * discriminate E.
  - split; [intros (x & -> & _); eauto|intros (x & ->); exists x; split; [reflexivity|discriminate]].
Qed.
Theorem C198_mesh_succeeds_iff_finite : forall lx ly xs ys zs nx ny s0 b s fuel m sched s' e, (0 < nx)%nat -> (0 < ny)%nat -> new_spiral lx ly xs ys zs (Bins nx) (Bins ny) = Ok s0 -> life s0 b s ->
  (forall l, Permutation (sched l) l) -> initialize fuel m sched s = Some (s', e) ->
  ((forall x y z, In (x, y, z) (combine (combine xs ys) (given xs zs)) -> complete (x, y, z) = true -> plottable lx x /\ plottable ly y) -> e = None /\ exists s'', build_grouped s' = Ok s'')
  /\ ((exists x y z, In (x, y, z) (combine (combine xs ys) (given xs zs)) /\ complete (x, y, z) = true /\ ~ (plottable lx x /\ plottable ly y)) -> e = Some TypeError /\ build_grouped s' = Err AttributeError).
Proof.
  intros lx ly xs ys zs nx ny s0 b s fuel m sched s' e Px Py E L PS I. unfold new_spiral in E. destruct (set_data2 lx ly xs ys zs) as [data|] eqn:SD; [|discriminate E]. cbn [bind initial_edges] in E.
  destruct (default_edges nx (map (fun r => fst (fst r)) data)) as [bx|] eqn:EX; [|discriminate E]. cbn [bind] in E. destruct (default_edges ny (map (fun r => snd (fst r)) data)) as [by_|] eqn:EY; [|discriminate E]. cbn [bind] in E. apply ok_inj in E.
  assert (CX : exists x, In (Fin x) (map (fun r => fst (fst r)) data)).
  { destruct (finite_values (map (fun r => fst (fst r)) data)) as (l & EF & HF). destruct l as [|x l]; [unfold default_edges in EX; rewrite EF in EX; discriminate EX|]. exists x. apply HF. left. reflexivity. }
  assert (CY : exists x, In (Fin x) (map (fun r => snd (fst r)) data)).
  { destruct (finite_values (map (fun r => snd (fst r)) data)) as (l & EF & HF). destruct l as [|x l]; [unfold default_edges in EY; rewrite EF in EY; discriminate EY|]. exists x. apply HF. left. reflexivity. }
  destruct (C87_default_edges_cover nx _ Px CX) as (ex & EX' & Ox & NX & _ & BX). destruct (C87_default_edges_cover ny _ Py CY) as (ey & EY' & Oy & NY & _ & BY).
  assert (bx = map Fin ex) by congruence. assert (by_ = map Fin ey) by congruence. subst bx by_.
  assert (N0 : sp_mesh s0 = None) by (subst s0; reflexivity). destruct (life_tidy _ _ _ L) as [A1 A2 A3 A4 A5 _ _ _].
  assert (ED : sp_data s = data) by (rewrite A3; subst s0; reflexivity). assert (EP : points s = map fst data) by (unfold points; rewrite ED; reflexivity).
  unfold initialize in I. rewrite A4, A5, EP in I. replace (sp_ex s0) with (map Fin ex) in I by (subst s0; reflexivity). replace (sp_ey s0) with (map Fin ey) in I by (subst s0; reflexivity).
  assert (RG : forall p, In p (map fst data) -> (exists x y, p = (Fin x, Fin y)) -> region ex ey p).
  { intros p J (x & y & ->). exists x, y. split; [reflexivity|]. rewrite NX, NY. split; [apply BX|apply BY]; apply in_map_iff in J as (r & Er & J); apply in_map_iff; exists r; rewrite Er; auto. }
  assert (RD : forall p, In p (map fst data) <-> exists x y z, In (x, y, z) (combine (combine xs ys) (given xs zs)) /\ complete (x, y, z) = true /\ p = (coord lx x, coord ly y)).
  { intro p. rewrite (data_rows _ _ _ _ _ _ SD), map_map. cbn [fst]. rewrite in_map_iff. split.
    - intros ([[x y] z] & <- & J). apply filter_In in J as [J1 J2]. exists x, y, z. auto.
    - intros (x & y & z & J1 & J2 & ->). exists (x, y, z). split; [reflexivity|]. apply filter_In. auto. }
  assert (NB : (0 < nbin ex)%nat /\ (0 < nbin ey)%nat) by lia.
  destruct (generate_mesh fuel m (map Fin ex) (map Fin ey) (map fst data)) as [[cells|]|e0] eqn:G; [|discriminate I|].
  2:{ exfalso. unfold generate_mesh in G. assert (IC := initial_cells ex ey). destruct (initialize_bins (map Fin ex) (map Fin ey)) as [|c l]; [|discriminate G].
      assert (J : In (0%nat, 0%nat) (grid ex ey)) by (unfold grid; apply in_prod; apply in_seq; lia). destruct (grid ex ey); [destruct J|discriminate IC]. }
  cbv zeta in I. assert (P := PS (writes cells (map fst data))). destruct (C127_every_datum_must_be_inside _ _ _ _ _ _ _ Ox Oy G P) as [B1 B2].
  split.
  - intro H. rewrite B1 in I.
    + assert (Q := f_equal (fun o => match o with Some x => x | None => (s, None) end) I). cbv beta iota in Q. assert (Q1 := f_equal fst Q). assert (Q2 := f_equal snd Q). cbn [fst snd] in Q1, Q2. subst s' e.
      split; [reflexivity|]. unfold build_grouped. cbn [sp_mesh with_mesh sm_cat]. unfold zvalues. cbn [sp_data with_mesh]. rewrite ED. unfold run_writes. rewrite !map_length, seq_length, Nat.eqb_refl. eauto.
    + intros p J. apply RG; [exact J|]. apply RD in J as (x & y & z & J1 & J2 & ->). destruct (H x y z J1 J2) as [H1 H2]. apply plottable_coord in H1 as (u & ->). apply plottable_coord in H2 as (v & ->). eauto.
  - intros (x & y & z & J1 & J2 & N). rewrite B2 in I.
    + assert (Q := f_equal (fun o => match o with Some x => x | None => (s, None) end) I). cbv beta iota in Q. assert (Q1 := f_equal fst Q). assert (Q2 := f_equal snd Q). cbn [fst snd] in Q1, Q2. subst s' e. split; reflexivity.
    + exists (coord lx x, coord ly y). split; [apply RD; exists x, y, z; auto|]. intros (u & v & Q & _). apply N. split; apply plottable_coord; [exists u|exists v]; congruence.
Qed.

(* ------------------------------------------------------------------ groups that are not up to date *)
Lemma writes_value f clim n zb z t i : build_cat zb = Ok zb -> spiral_agg f clim (repeat true n) n zb z = Ok t -> (i < n)%nat ->
  let rows := combine (map (fun b => Some (Z.to_nat b)) zb) z in
  nth_error t i = Some (if is_observed nat Nat.eqb rows i then if within clim (count (members nat Nat.eqb rows i)) then the_fcn f z (members nat Nat.eqb rows i) else NaN else NaN).
Proof.
  intros BC E Li rows. unfold spiral_agg in E. rewrite BC in E. cbn [bind] in E. destruct (Nat.eqb (List.length zb) (List.length z)) eqn:Lz; [|discriminate E]. cbn [negb] in E. rewrite repeat_length, Nat.eqb_refl in E. cbn [negb] in E. cbv iota zeta in E. apply ok_inj in E. subst t. apply Nat.eqb_eq in Lz.
  assert (NK : nth_error (combine (seq 0 n) (repeat true n)) i = Some (i, true)).
  { assert (D : nth i (combine (seq 0 n) (repeat true n)) (0%nat, true) = (i, true)) by (rewrite combine_nth by (rewrite seq_length, repeat_length; reflexivity); rewrite seq_nth by exact Li; rewrite nth_repeat; reflexivity).
    rewrite <- D. apply nth_error_nth'. rewrite combine_length, seq_length, repeat_length, Nat.min_id. exact Li. }
  rewrite (map_nth_error _ _ _ NK). cbn [fst snd]. fold rows. rewrite runner_gtab, (at_gtab_in nat Nat.eqb nat_eqb_spec) by (apply in_seq; lia).
  assert (SN : map snd rows = z).
  { unfold rows. assert (LL : List.length (map (fun b => Some (Z.to_nat b)) zb) = List.length z) by (rewrite map_length; exact Lz). revert LL. generalize (map (fun b => Some (Z.to_nat b)) zb). clear. intros l. revert z. induction l as [|a l IH]; intros [|v z] L; try discriminate; [reflexivity|]. cbn [combine map snd]. rewrite IH by (cbn in L; lia). reflexivity. }
  rewrite SN. reflexivity.
Qed.
(** C198: making a new mesh without grouping again leaves the old numbering in force: cell i of the new mesh shows what cell i of the old one held, wherever the
    two may lie. *)
Theorem C198_stale_groups_refuted : forall lx ly xs ys zs s0 s fuel m sched s' cells cells' c i, started lx ly xs ys zs s0 -> life s0 Grouped s ->
  cells_of s = cells -> initialize fuel m sched s = Some (s', None) -> cells_of s' = cells' ->
  nth_error cells i = Some c -> (i < List.length cells')%nat -> sp_clim s = nolim ->
  exists t, agg FCount s' = Ok t /\ List.length t = List.length cells'
  /\ let n := List.length (held c (map fst (sp_data s0)) (map snd (sp_data s0))) in nth_error t i = Some (if Nat.eqb n 0 then NaN else Fin (INR n)).
Proof.
  intros lx ly xs ys zs s0 s fuel m sched s' cells cells' c i E L CO I CO' Nc Li CL. assert (NS : Grouped <> Stale) by discriminate.
  assert (TD := life_tidy _ _ _ L). destruct TD as [A1 A2 A3 A4 A5 A6 A7 A8]. destruct (A8 eq_refl) as (m0 & cat & EM & EC & EG). destruct (A7 NS _ _ EM EC) as (BC & cells0 & PL).
  destruct (A6 NS _ EM _ _ PL) as (_ & ws & P & EZ).
  destruct (fresh _ _ _ _ _ _ _ E L) as (ex & ey & m1 & cells1 & zbin1 & keep & fuel1 & k & EM1 & PL1 & _ & _ & Ox & Oy & G & AR & LX & LY & SD & _).
  assert (m1 = m0) by congruence. subst m1. assert (cells1 = cells0) by congruence. assert (cells0 = cells) by (unfold cells_of in CO; rewrite EM, PL in CO; exact CO). subst cells1 cells0. clear EM1 PL1.
  assert (LZ : List.length cat = List.length (map snd (sp_data s0))) by (rewrite EZ; unfold run_writes, points; rewrite !map_length, seq_length; reflexivity).
  unfold initialize in I. rewrite A4, A5 in I. destruct (generate_mesh fuel m (sp_ex s0) (sp_ey s0) (points s)) as [[cells2|]|]; [|discriminate I|discriminate I]. cbv zeta in I. destruct (build_cat _) as [cat2|] eqn:B2; [|discriminate I].
  assert (Q := f_equal (fun o => match o with Some x => fst x | None => s' end) I). cbn [fst] in Q. clear I. subst s'. unfold cells_of in CO'. cbn [with_mesh sp_mesh sm_placed] in CO'. subst cells2.
  unfold agg. cbn [with_mesh sp_groups sp_mesh sm_placed sm_size sm_dens sp_clim]. rewrite EG. rewrite C130_filters_off_keep_everything. cbn [bind]. unfold zvalues. cbn [with_mesh sp_data]. rewrite A3, CL, agg_same.
  replace (map (fun _ : box XR => true) cells') with (repeat true (List.length cells')) by (clear; induction cells' as [|a l IH]; [reflexivity|]; cbn [List.length repeat map]; rewrite IH; reflexivity).
  set (z := map snd (sp_data s0)) in *.
  assert (SA : exists t, spiral_agg FCount nolim (repeat true (List.length cells')) (List.length cells') cat z = Ok t /\ List.length t = List.length cells').
  { unfold spiral_agg. rewrite BC. cbn [bind]. rewrite LZ, repeat_length, !Nat.eqb_refl. cbn [negb]. cbv iota zeta. eexists. split; [reflexivity|]. rewrite map_length, combine_length, seq_length, repeat_length. apply Nat.min_id. }
  destruct SA as (t & ET & LT). exists t. split; [exact ET|]. split; [exact LT|]. cbv zeta. rewrite (writes_value _ _ _ _ _ _ _ BC ET Li). rewrite EZ.
  unfold points in *. destruct (zbin_members _ _ _ _ _ _ ws z i c Ox Oy G P AR Nc) as [M1 M2]. rewrite M1, M2. change (within nolim _) with true. cbv iota. fold z.
  assert (NN : tally notnan (held c (map fst (sp_data s0)) z) = List.length (held c (map fst (sp_data s0)) z)).
  { unfold tally. f_equal. assert (F : forall v, In v z -> notnan v = true) by (intros v J; unfold z in J; rewrite (data_rows _ _ _ _ _ _ SD), map_map in J; apply in_map_iff in J as (r & <- & J); apply filter_In in J as [_ J]; unfold complete in J; apply andb_prop in J; apply J).
    assert (F2 : forall v, In v (held c (map fst (sp_data s0)) z) -> notnan v = true) by (intros v J; apply F; unfold held in J; apply in_map_iff in J as ([a b] & <- & J); apply filter_In in J as [J _]; apply in_combine_r in J; exact J).
    revert F2. generalize (held c (map fst (sp_data s0)) z). clear. induction l as [|a l IH]; intro F2; [reflexivity|]. cbn [filter]. rewrite (F2 a (or_introl eq_refl)). f_equal. apply IH. intros; apply F2; right; assumption. }
  cbn [the_fcn]. unfold count, ofnat. rewrite fin_ofZ, <- INR_IZR_INZ. change (List.length (filter notnan (held c (map fst (sp_data s0)) z))) with (tally notnan (held c (map fst (sp_data s0)) z)). rewrite NN.
  destruct (held c (map fst (sp_data s0)) z); reflexivity.
Qed.
Lemma ordered_two a b : a <= b -> ordered [a; b].
Proof. intros L i j H. cbn [List.length] in H. destruct j as [|[|j]]; [destruct i; [cbn; lra|lia]| |lia]. destruct i as [|[|i]]; [cbn; lra|cbn; lra|lia]. Qed.
Definition ex_plot : splot XR := mkPlot false false [(Fin (1/4), Fin (1/4), Fin 1); (Fin (3/4), Fin (3/4), Fin 1)] (map Fin [0; 101/100]) (map Fin [0; 101/100]) (None, None) None None.
Lemma ex_new : new_spiral false false [Fin (1/4); Fin (3/4)] [Fin (1/4); Fin (3/4)] None (Edges (map Fin [0; 1])) (Edges (map Fin [0; 1])) = Ok ex_plot.
Proof.
  assert (W : widen (map Fin [0; 1]) = map Fin [0; 101/100]).
  { rewrite (widen_fin [0; 1] 1); [|right; left; reflexivity|intros y [<-|[<-|[]]]; lra]. cbn [removelast app]. unfold widened. rewrite Rmax_right by lra. do 3 f_equal. lra. }
  unfold new_spiral. cbn [initial_edges]. unfold explicit_edges. rewrite W. unfold set_data2. cbn [combine map]. rewrite fin_a1. reflexivity.
Qed.
Lemma ex_mesh : initialize 0 2 (fun l => l) ex_plot = Some (with_mesh ex_plot (mkMesh (Some (map (cell0 [0; 101/100] [0; 101/100]) [(0, 0)%nat], [0; 0]%Z)) (Some [0; 0]%Z) None None), None).
Proof.
  assert (G : generate_mesh 0 2 (map Fin [0; 101/100]) (map Fin [0; 101/100]) (points ex_plot) = Ok (Some (map (cell0 [0; 101/100] [0; 101/100]) (grid [0; 101/100] [0; 101/100])))).
  { apply C85_no_needless_division; [cbn; lia|cbn; lia|]. intros i j _ _. exists [0; 1]%nat. split; [cbn; lia|]. intros k p N _. destruct k as [|[|k]]; [left; reflexivity|right; left; reflexivity|destruct k; discriminate N]. }
  change (grid [0; 101/100] [0; 101/100]) with [(0, 0)%nat] in G. unfold initialize. change (sp_ex ex_plot) with (map Fin [0; 101/100]). change (sp_ey ex_plot) with (map Fin [0; 101/100]). rewrite G. cbv zeta.
  assert (EW : writes (map (cell0 [0; 101/100] [0; 101/100]) [(0, 0)%nat]) (points ex_plot) = [(0%nat, 0%Z); (1%nat, 0%Z)]).
  { unfold writes, points, ex_plot. cbn [sp_data map List.length seq combine flat_map fst snd app]. unfold cell0. cbn [fst snd nth filter]. rewrite !in_cell_fin.
    replace (Rleb 0 (1/4)) with true by (symmetry; apply Rleb_true; lra). replace (Rltb (1/4) (101/100)) with true by (symmetry; apply Rltb_true; lra). replace (Rleb 0 (3/4)) with true by (symmetry; apply Rleb_true; lra). replace (Rltb (3/4) (101/100)) with true by (symmetry; apply Rltb_true; lra). reflexivity. }
  rewrite EW. reflexivity.
Qed.
Lemma ex_group : exists s, build_grouped (with_mesh ex_plot (mkMesh (Some (map (cell0 [0; 101/100] [0; 101/100]) [(0, 0)%nat], [0; 0]%Z)) (Some [0; 0]%Z) None None)) = Ok s
  /\ cells_of s = map (cell0 [0; 101/100] [0; 101/100]) [(0, 0)%nat] /\ sp_clim s = nolim /\ life ex_plot Grouped s /\ points s = points ex_plot /\ sp_ex s = map Fin [0; 101/100] /\ sp_ey s = map Fin [0; 101/100].
Proof.
  eexists. split; [reflexivity|]. split; [reflexivity|]. split; [reflexivity|]. split; [|split; [reflexivity|split; reflexivity]].
  refine (grouped ex_plot Meshed _ _ (meshed ex_plot Stale ex_plot 0 2 (fun l => l) _ None (born _) _ ex_mesh) _); [intro l; apply Permutation_refl|reflexivity].
Qed.
(** ... so after dividing the one cell of a two-row plot more finely, the first of its new cells shows two rows though none of them holds more than one. *)
Theorem C198_stale_picture_refuted : exists s0 s1 s2 s3 fuel patches p, new_spiral false false [Fin (1/4); Fin (3/4)] [Fin (1/4); Fin (3/4)] None (Edges (map Fin [0; 1])) (Edges (map Fin [0; 1])) = Ok s0
  /\ initialize 0 2 (fun l => l) s0 = Some (s1, None) /\ build_grouped s1 = Ok s2 /\ initialize fuel 1 (fun l => l) s2 = Some (s3, None) /\ draw FCount s3 = Ok patches
  /\ nth_error patches 0 = Some p /\ pt_v p = Some (Fin 2)
  /\ forall x y w h, pt_x p = Fin x -> pt_y p = Fin y -> pt_w p = Fin w -> pt_h p = Fin h -> (List.length (rows_in false false x y w h [Fin (1/4); Fin (3/4)] [Fin (1/4); Fin (3/4)] [Fin 1; Fin 1]) <= 1)%nat.
Proof.
  destruct ex_group as (s2 & B & CO & CL & LF & EP & EEX & EEY). assert (OR : ordered [0; 101/100]) by (apply ordered_two; lra).
  assert (TM : exists fuel mesh, generate_mesh fuel 1 (map Fin [0; 101/100]) (map Fin [0; 101/100]) (points ex_plot) = Ok (Some mesh)).
  { apply (proj2 (C86_terminates_iff 1 [0; 101/100] [0; 101/100] (points ex_plot) OR OR ltac:(cbv; lia) ltac:(cbv; lia))).
    intros x y _. unfold copies, points, ex_plot. cbn [sp_data map fst]. rewrite !tally_cons. cbn [same]. destruct (Reqb (1 / 4) x) eqn:A; destruct (Reqb (3 / 4) x) eqn:C; try (cbn; destruct (Reqb (1 / 4) y), (Reqb (3 / 4) y); cbn; lia).
    apply Reqb_true in A. apply Reqb_true in C. exfalso. lra. }
  destruct TM as (fuel & mesh & G).
  assert (AR : forall p, In p (points ex_plot) -> region [0; 101/100] [0; 101/100] p) by (intros p [<-|[<-|[]]]; (do 2 eexists; split; [reflexivity|]; unfold nbin; cbn; lra)).
  set (ws := writes mesh (points ex_plot)). assert (BC : build_cat (run_writes (List.length (points ex_plot)) ws) = Ok (run_writes (List.length (points ex_plot)) ws)) by (apply (proj1 (C127_every_datum_must_be_inside _ _ _ _ _ _ _ OR OR G (Permutation_refl _)) AR)).
  set (m3 := mkMesh (Some (mesh, run_writes (List.length (points ex_plot)) ws)) (Some (run_writes (List.length (points ex_plot)) ws)) None None).
  assert (I3 : initialize fuel 1 (fun l => l) s2 = Some (with_mesh s2 m3, None)) by (unfold initialize; rewrite EEX, EEY, EP, G; cbv zeta; fold ws; rewrite BC; reflexivity).
  assert (NM : mesh <> []) by (apply (mesh_nonempty _ _ _ _ _ _ G OR OR); [discriminate|exact AR]). assert (EMH : exists c mesh', mesh = c :: mesh') by (destruct mesh as [|c mesh']; [congruence|eauto]). destruct EMH as (c & mesh' & EMH).
  assert (SN : sane (Edges (map Fin [0; 1]))) by (exists [0; 1]; split; [reflexivity|apply ordered_two; lra]).
  destruct (C198_stale_groups_refuted _ _ _ _ _ _ _ _ _ _ _ _ mesh (cell0 [0; 101/100] [0; 101/100] (0, 0)%nat) 0 (by_constructor _ _ _ _ _ _ _ _ SN SN ex_new) LF CO I3) as (t & ET & LT & V);
    [reflexivity|reflexivity|rewrite EMH; cbn; lia|exact CL|].
  assert (HL : List.length (held (cell0 [0; 101/100] [0; 101/100] (0, 0)%nat) (map fst (sp_data ex_plot)) (map snd (sp_data ex_plot))) = 2%nat).
  { unfold held, ex_plot, cell0. cbn [sp_data map fst snd combine nth filter]. unfold holds.
    replace (Rleb 0 (1/4)) with true by (symmetry; apply Rleb_true; lra). replace (Rltb (1/4) (101/100)) with true by (symmetry; apply Rltb_true; lra). replace (Rleb 0 (3/4)) with true by (symmetry; apply Rleb_true; lra). replace (Rltb (3/4) (101/100)) with true by (symmetry; apply Rltb_true; lra). reflexivity. }
  rewrite HL in V. cbn [Nat.eqb] in V. cbv zeta iota in V. destruct t as [|v t]; [discriminate V|]. injection V as V. assert (V2 : v = Fin 2) by (rewrite V; f_equal; cbn; lra). clear V. subst v.
  assert (C3 : cells_of (with_mesh s2 m3) = c :: mesh') by (rewrite <- EMH; reflexivity).
  exists ex_plot, (with_mesh ex_plot (mkMesh (Some (map (cell0 [0; 101/100] [0; 101/100]) [(0, 0)%nat], [0; 0]%Z)) (Some [0; 0]%Z) None None)), s2, (with_mesh s2 m3), fuel, (map (fun cv => patch_of (with_mesh s2 m3) (fst cv) (snd cv)) (combine (c :: mesh') (Fin 2 :: t))), (patch_of (with_mesh s2 m3) c (Fin 2)).
  split; [exact ex_new|]. split; [exact ex_mesh|]. split; [exact B|]. split; [exact I3|]. split; [unfold draw; rewrite ET; cbn [bind]; rewrite LT, C3, EMH, Nat.eqb_refl; reflexivity|]. split; [reflexivity|]. split; [reflexivity|].
  intros x y w h Ex Ey Ew Eh. rewrite EMH in G. assert (UP := cells_upright _ _ _ _ _ _ G OR OR). rewrite Forall_forall in UP. destruct (UP c (or_introl eq_refl)) as (a & b & a' & b' & EC & _ & _).
  assert (L1 : sp_logx s2 = false /\ sp_logy s2 = false) by (destruct (life_tidy ex_plot Grouped s2 LF) as [Q1 Q2 _ _ _ _ _ _]; split; assumption).
  unfold patch_of in *. cbn [pt_x pt_y pt_w pt_h with_mesh sp_logx sp_logy] in *. rewrite EC in *. destruct L1 as [L1 L2]. rewrite L1 in Ex, Ew. rewrite L2 in Ey, Eh. cbn [delog bx0 bx1 by0 by1] in *. rewrite fin_sub in Ew, Eh.
  assert (x = a) by congruence. assert (y = a') by congruence. assert (w = b - a) by congruence. assert (h = b' - a') by congruence. subst x y w h.
  destruct (set_data2 false false [Fin (1/4); Fin (3/4)] [Fin (1/4); Fin (3/4)] None) as [data|] eqn:SD; [|unfold set_data2 in SD; cbn [combine map] in SD; rewrite fin_a1 in SD; discriminate SD].
  assert (HR := held_rows false false a b a' b' _ _ _ _ SD). change (given [Fin (1/4); Fin (3/4)] None) with [Fin 1; Fin 1] in HR. cbn [as_drawn] in HR. rewrite <- HR.
  assert (ED : data = sp_data ex_plot) by (unfold set_data2 in SD; cbn [combine map] in SD; rewrite fin_a1 in SD; apply ok_inj in SD; symmetry; exact SD). rewrite ED.
  pose (c0 := mk_box (Fin a) (Fin b) (Fin a') (Fin b')). assert (RB : real_box c0) by (exists a, b, a', b'; reflexivity).
  unfold held, ex_plot. cbn [sp_data map fst snd combine filter]. fold c0. destruct (holds c0 (Fin (1/4), Fin (1/4))) eqn:H1; destruct (holds c0 (Fin (3/4), Fin (3/4))) eqn:H2; cbn [map List.length]; try lia.
  exfalso. rewrite holds_in_cell in H1, H2 by exact RB. apply (proj1 (in_cell_inside _ _ RB)) in H1. apply (proj1 (in_cell_inside _ _ RB)) in H2.
  assert (L : (2 <= 1)%nat); [|lia]. change 2%nat with (List.length [0%nat; 1%nat]). eapply (C85_cells_respect_threshold _ _ _ _ _ _ OR OR G c0 [0%nat; 1%nat]).
  - left. reflexivity.
  - repeat constructor; cbn; intuition lia.
  - intros k [<-|[<-|[]]]; eexists; (split; [reflexivity|]); assumption.
Qed.
Example C198_ex : exists s, life ex_plot Grouped s /\ exists patches p, draw FDefault s = Ok patches /\ nth_error patches 0 = Some p /\ pt_v p = Some (Fin 2).
Proof.
  destruct ex_group as (s & B & CO & CL & LF & _). exists s. split; [exact LF|].
  assert (SN : sane (Edges (map Fin [0; 1]))) by (exists [0; 1]; split; [reflexivity|apply ordered_two; lra]).
  destruct (C198_rectangles_show_their_rows _ _ _ _ _ _ s FDefault (by_constructor _ _ _ _ _ _ _ _ SN SN ex_new) LF) as (patches & m & cells & zbin & keep & ED & EM & PL & EK & LP & LK & H).
  exists patches. assert (LC : cells = map (cell0 [0; 101/100] [0; 101/100]) [(0, 0)%nat]) by (rewrite <- CO; unfold cells_of; rewrite EM, PL; reflexivity).
  destruct patches as [|p l]; [rewrite LC in LP; discriminate LP|]. exists p. split; [exact ED|]. split; [reflexivity|].
  destruct ex_group as (s' & B' & _). assert (s' = s) by congruence. subst s'. clear B'.
  assert (Q : sp_mesh s = Some (mkMesh (Some (map (cell0 [0; 101/100] [0; 101/100]) [(0, 0)%nat], [0; 0]%Z)) (Some [0; 0]%Z) None None)) by (unfold build_grouped in B; cbn [sp_mesh with_mesh sm_cat] in B; destruct (Nat.eqb _ _) in B; [|discriminate B]; apply ok_inj in B; rewrite <- B; reflexivity).
  rewrite Q in EM. injection EM as <-. cbn [sm_size sm_dens] in EK. rewrite C130_filters_off_keep_everything in EK. rewrite LC in EK. cbn [map] in EK. assert (keep = [true]) by congruence. subst keep.
  assert (DX : draw FDefault s = Ok (p :: l)) by exact ED.
  assert (EA : exists v, p = patch_of s (cell0 [0; 101/100] [0; 101/100] (0, 0)%nat) v).
  { unfold draw in DX. destruct (agg FDefault s) as [C|]; [|discriminate DX]. cbn [bind] in DX. rewrite CO in DX. cbn [map List.length] in DX. destruct C as [|v [|v' C]]; cbn [List.length Nat.eqb] in DX; try discriminate DX. apply ok_inj in DX. exists v. cbn [combine map fst snd] in DX. congruence. }
  destruct EA as (v0 & EA). destruct (H 0%nat p eq_refl) as (x & y & w & h & E1 & E2 & E3 & E4 & _ & _ & V & _).
  assert (L1 : sp_logx s = false /\ sp_logy s = false) by (destruct (life_tidy ex_plot Grouped s LF) as [Q1 Q2 _ _ _ _ _ _]; split; assumption). destruct L1 as [L1 L2].
  rewrite EA in E1, E2, E3, E4. unfold patch_of, cell0 in E1, E2, E3, E4. cbn [pt_x pt_y pt_w pt_h bx0 bx1 by0 by1 fst snd nth] in E1, E2, E3, E4. rewrite L1 in E1, E3. rewrite L2 in E2, E4. cbn [delog] in *. rewrite fin_sub in E3, E4.
  assert (x = 0) by congruence. assert (y = 0) by congruence. assert (w = 101/100 - 0) by congruence. assert (h = 101/100 - 0) by congruence. subst x y w h.
  assert (RI : rows_in false false 0 0 (101/100 - 0) (101/100 - 0) [Fin (1/4); Fin (3/4)] [Fin (1/4); Fin (3/4)] (given [Fin (1/4); Fin (3/4)] None) = [Fin 1; Fin 1]).
  { unfold rows_in. cbn [given map combine filter fst snd magnitude]. unfold from_to.
    replace (Rleb 0 (1/4)) with true by (symmetry; apply Rleb_true; lra). replace (Rltb (1/4) (0 + (101/100 - 0))) with true by (symmetry; apply Rltb_true; lra). replace (Rleb 0 (3/4)) with true by (symmetry; apply Rleb_true; lra). replace (Rltb (3/4) (0 + (101/100 - 0))) with true by (symmetry; apply Rltb_true; lra). reflexivity. }
  cbv zeta in V. rewrite RI in V. destruct V as (v & VO & SH); [reflexivity|discriminate|rewrite CL; split; discriminate|].
  assert (VV : v = Fin (INR 2)). { apply VO. exists 1. intros z J. unfold all_rows in J. cbn [given map combine filter fst snd complete] in J. destruct J as [<-|[<-|[]]]; reflexivity. }
  subst v. cbn [shows] in SH. rewrite SH. do 2 f_equal; cbn; lra.
Qed.

(* ------------------------------------------------------------------ C199: opacity and contours *)
(** C199: the opacity is one number per rectangle, whatever the limits and filters: 0 where the opacity's own aggregate has no finite value, else between 0 and 1, lower for
    higher values and 1 at the lowest. *)
Theorem C199_opacity : forall lx ly xs ys zs s0 s f alpha_fcn, started lx ly xs ys zs s0 -> life s0 Grouped s ->
  exists patches vs alpha (g : R -> R), draw f s = Ok patches /\ agg alpha_fcn s = Ok vs /\ face_alpha alpha_fcn s = Ok alpha /\ List.length alpha = List.length patches
  /\ (forall i, (i < List.length patches)%nat -> nth_error alpha i = Some (match nth i vs NaN with Fin v => Fin (g v) | _ => Fin 0 end))
  /\ (forall v, In (Fin v) vs -> 0 <= g v <= 1) /\ (forall v w, In (Fin v) vs -> In (Fin w) vs -> v < w -> g w < g v)
  /\ (forall v, In (Fin v) vs -> (forall w, In (Fin w) vs -> v <= w) -> g v = 1).
Proof.
  intros lx ly xs ys zs s0 s f af E L. destruct (fresh _ _ _ _ _ _ _ E L) as (ex & ey & m & cells & zbin & keep & fuel & k & EM & PL & _ & _ & _ & _ & _ & _ & _ & _ & _ & H).
  destruct (H f) as (t & ET & LT & _). destruct (H af) as (vs & EV & LV & _). assert (CO : cells_of s = cells) by (unfold cells_of; rewrite EM, PL; reflexivity).
  destruct (C166_opacity vs) as (g & EO & B & B1 & _ & M).
  assert (RI : forall v, In (Fin v) vs <-> In v (reals vs)).
  { intro v. unfold reals. rewrite in_flat_map. split; [intro I; exists (Fin v); split; [exact I|left; reflexivity]|]. intros (u & I & J). destruct u as [u| | |]; [|destruct J..]. destruct J as [<-|[]]. exact I. }
  exists (map (fun cv => patch_of s (fst cv) (snd cv)) (combine cells t)), vs, (opacity vs), g.
  split; [unfold draw; rewrite ET; cbn [bind]; rewrite CO, LT, Nat.eqb_refl; reflexivity|]. split; [exact EV|]. split; [unfold face_alpha; rewrite EV; reflexivity|].
  assert (LP : List.length (map (fun cv => patch_of s (fst cv) (snd cv)) (combine cells t)) = List.length cells) by (rewrite map_length, combine_length, LT; apply Nat.min_id).
  split; [rewrite EO, map_length, LP; exact LV|]. split.
  { intros i Li. rewrite LP, <- LV in Li. rewrite EO, nth_error_map. rewrite (nth_error_nth' vs NaN Li). cbn [option_map]. destruct (nth i vs NaN); reflexivity. }
  split; [intros v I; apply B, RI, I|]. split; [intros v w I J LW; apply M; [apply RI, I|apply RI, J|exact LW]|].
  intros v I W. apply B1. split; [apply RI, I|]. intros w J. apply W, RI, J.
Qed.
(** C199: contours are interpolated from exactly the rectangles that are not blank, one point each, in order, with their values; each point lies inside its own rectangle. *)
Theorem C199_contour_points : forall lx ly xs ys zs s0 s f name, started lx ly xs ys zs s0 -> life s0 Grouped s -> In name ["rbf"; "grid"; "tricontour"]%string ->
  exists patches pts, draw f s = Ok patches /\ contour_points name f s = Ok pts
  /\ Forall2 (fun p q => pt_v p = Some (snd q) /\ exists x y w h u v, pt_x p = Fin x /\ pt_y p = Fin y /\ pt_w p = Fin w /\ pt_h p = Fin h /\ fst (fst q) = Fin u /\ snd (fst q) = Fin v
       /\ x <= u <= x + w /\ y <= v <= y + h) (filter (fun p => match pt_v p with Some _ => true | None => false end) patches) pts.
Proof.
  intros lx ly xs ys zs s0 s f name E L IN. destruct (fresh _ _ _ _ _ _ _ E L) as (ex & ey & m & cells & zbin & keep & fuel & k & EM & PL & _ & _ & Ox & Oy & G & _ & LX & LY & _ & H).
  destruct (H f) as (t & ET & LT & _). assert (CO : cells_of s = cells) by (unfold cells_of; rewrite EM, PL; reflexivity). assert (UP := cells_upright _ _ _ _ _ _ G Ox Oy).
  do 2 eexists. split; [unfold draw; rewrite ET; cbn [bind]; rewrite CO, LT, Nat.eqb_refl; reflexivity|].
  assert (EMT : exists w, method_of name = Ok w) by (destruct IN as [<-|[<-|[<-|[]]]]; eexists; reflexivity). destruct EMT as (w & EMT).
  split; [unfold contour_points; rewrite EMT; cbn [bind]; rewrite ET; cbn [bind]; rewrite CO, LT, Nat.eqb_refl; reflexivity|].
  rewrite LX, LY. clear H ET CO PL EM G. revert t LT. induction UP as [|c cells (a & b & a' & b' & -> & L1 & L2) UP IH]; intros [|v t] LT; try discriminate LT; [constructor|].
  cbn [combine map filter fst snd]. assert (LT' : List.length t = List.length cells) by (cbn in LT; lia).
  assert (EPV : pt_v (patch_of s (mk_box (Fin a) (Fin b) (Fin a') (Fin b')) v) = masked v) by reflexivity. rewrite EPV. unfold masked.
  destruct v as [v| | |]; cbn [aisfin]; try (exact (IH t LT')).
  change (aisfin (Fin v)) with true. cbn iota. constructor; [|exact (IH t LT')]. cbn [snd fst]. split; [reflexivity|].
  exists (as_drawn lx a), (as_drawn ly a'), (as_drawn lx b - as_drawn lx a), (as_drawn ly b' - as_drawn ly a'), (as_drawn lx ((a + b) / 2)), (as_drawn ly ((a' + b') / 2)).
  unfold patch_of. cbn [pt_x pt_y pt_w pt_h bx0 bx1 by0 by1]. rewrite LX, LY, !delog_fin, !fin_sub. unfold middle. rewrite !fin_add, fin_ofZ, !fin_div by lra. rewrite !delog_fin.
  do 6 (split; [reflexivity|]). assert (Q1 : a <= (a + b) / 2 <= b) by lra. assert (Q2 : a' <= (a' + b') / 2 <= b') by lra.
  pose proof (drawn_le lx _ _ (proj1 Q1)). pose proof (drawn_le lx _ _ (proj2 Q1)). pose proof (drawn_le ly _ _ (proj1 Q2)). pose proof (drawn_le ly _ _ (proj2 Q2)). lra.
Qed.
(** C199: any other interpolation method is refused before anything else is looked at. *)
Theorem C199_unknown_method : forall name f (s : splot XR), ~ In name ["rbf"; "grid"; "tricontour"]%string -> contour_points name f s = Err ValueError.
Proof.
  intros name f s N. unfold contour_points, method_of. destruct (String.eqb name "rbf") eqn:E1; [apply String.eqb_eq in E1; exfalso; apply N; left; congruence|].
  destruct (String.eqb name "grid") eqn:E2; [apply String.eqb_eq in E2; exfalso; apply N; right; left; congruence|]. destruct (String.eqb name "tricontour") eqn:E3; [apply String.eqb_eq in E3; exfalso; apply N; right; right; left; congruence|]. reflexivity.
Qed.
Example C199_ex : exists s, life ex_plot Grouped s /\ exists pts, contour_points "rbf" FDefault s = Ok pts /\ pts <> [].
Proof.
  destruct C198_ex as (s & LF & patches & p & ED & NP & V). exists s. split; [exact LF|].
  assert (SN : sane (Edges (map Fin [0; 1]))) by (exists [0; 1]; split; [reflexivity|apply ordered_two; lra]).
  destruct (C199_contour_points _ _ _ _ _ _ s FDefault "rbf" (by_constructor _ _ _ _ _ _ _ _ SN SN ex_new) LF (or_introl eq_refl)) as (patches' & pts & ED' & EC & F). assert (patches' = patches) by congruence. subst patches'.
  exists pts. split; [exact EC|]. destruct patches as [|p0 l]; [discriminate NP|]. injection NP as ->. cbn [filter] in F. rewrite V in F. inversion F. discriminate.
Qed.

(* ------------------------------------------------------------------ C200: new data in an existing plot *)
(** C200: until the groups are built again, new data change nothing in what is aggregated and drawn by an explicit function: the old rows are shown. *)
Theorem C200_new_data_are_not_shown_refuted : forall xs ys zs s s' f, f <> FDefault -> replace_data (T := XR) xs ys zs s = Ok s' -> agg f s' = agg f s /\ draw f s' = draw f s
  /\ forall name, contour_points name f s' = contour_points name f s.
Proof.
  intros xs ys zs s s' f NF E. unfold replace_data in E. destruct (set_data2 (sp_logx s) (sp_logy s) xs ys zs) as [data|]; [|discriminate E]. cbn [bind] in E. apply ok_inj in E. subst s'.
  assert (EA : forall d, agg f (mkPlot (sp_logx s) (sp_logy s) d (sp_ex s) (sp_ey s) (sp_clim s) (sp_mesh s) (sp_groups s)) = agg f s).
  { intro d. unfold agg. cbn [sp_groups sp_mesh sp_clim]. destruct f; [congruence|reflexivity..]. }
  split; [apply EA|]. split.
  - unfold draw. rewrite EA. destruct (agg f s); reflexivity.
  - intro name. unfold contour_points. rewrite EA. destruct (method_of name); [|reflexivity]. cbn [bind]. destruct (agg f s); reflexivity.
Qed.
Lemma counts_by_position clim keep n cat (z z' : list XR) : List.length z' = List.length z -> (forall v, In v z -> notnan v = true) -> (forall v, In v z' -> notnan v = true) ->
  spiral_agg FCount clim keep n cat z' = spiral_agg FCount clim keep n cat z.
Proof.
  intros L N N'. unfold spiral_agg. destruct (build_cat cat) as [c|]; [|reflexivity]. cbn [bind]. rewrite L. destruct (Nat.eqb (List.length c) (List.length z)) eqn:LC; [|reflexivity]. apply Nat.eqb_eq in LC. cbn [negb].
  destruct (negb (Nat.eqb (List.length keep) n)); [reflexivity|]. cbv zeta. f_equal.
  set (ks := map (fun b => Some (Z.to_nat b)) c). assert (LK : List.length ks = List.length z) by (unfold ks; rewrite map_length; exact LC). clearbody ks. clear c cat LC.
  assert (M : forall k, count (T := XR) (members nat Nat.eqb (combine ks z') k) = count (T := XR) (members nat Nat.eqb (combine ks z) k)).
  { intro k. unfold count, ofnat. do 2 f_equal. revert ks z' L LK N'. induction z as [|v z IH]; intros [|o ks] [|v' z'] L LK N'; try discriminate L; try discriminate LK; [reflexivity|].
    unfold members in *. cbn [combine filter fst snd]. assert (I : List.length (filter notnan (map snd (filter (fun r => match fst r with Some q => Nat.eqb q k | None => false end) (combine ks z')))) = List.length (filter notnan (map snd (filter (fun r => match fst r with Some q => Nat.eqb q k | None => false end) (combine ks z))))).
    { apply IH; [intros; apply N; right; assumption|cbn in L; lia|cbn in LK; lia|intros; apply N'; right; assumption]. }
    destruct o as [q|]; [|exact I]. destruct (Nat.eqb q k); [|exact I]. cbn [map snd filter]. rewrite (N v (or_introl eq_refl)), (N' v' (or_introl eq_refl)). cbn [List.length]. f_equal. exact I. }
  assert (O : forall k, is_observed nat Nat.eqb (combine ks z') k = is_observed nat Nat.eqb (combine ks z) k).
  { intro k. unfold is_observed. clear N N' M. revert ks z' L LK. induction z as [|v z IH]; intros [|o ks] [|v' z'] L LK; try discriminate L; try discriminate LK; [reflexivity|]. cbn [combine existsb fst]. f_equal. apply IH; cbn in *; lia. }
  apply map_ext. intros [i b]. cbn [fst snd]. destruct b; [|reflexivity]. f_equal. unfold agg_runner, group_agg. rewrite (filter_ext _ _ O). rewrite !map_map. apply map_ext. intro k. cbn [fst snd the_fcn]. rewrite !M. reflexivity.
Qed.
(** C200: grouping again without making the mesh again is refused when the number of complete rows has changed; otherwise the new rows are counted where the old rows with
    the same position in the table lie, whatever their own coordinates. *)
Theorem C200_regrouping_ignores_coordinates_refuted : forall lx ly xs ys zs s0 s xs' ys' zs' s1, started lx ly xs ys zs s0 -> life s0 Grouped s -> replace_data xs' ys' zs' s = Ok s1 ->
  (List.length (all_rows xs' ys' (given xs' zs')) <> List.length (all_rows xs ys (given xs zs)) -> build_grouped s1 = Err ValueError)
  /\ (List.length (all_rows xs' ys' (given xs' zs')) = List.length (all_rows xs ys (given xs zs)) -> exists s2, build_grouped s1 = Ok s2 /\ agg FCount s2 = agg FCount s /\ draw FCount s2 = draw FCount s).
Proof.
  intros lx ly xs ys zs s0 s xs' ys' zs' s1 E L R. destruct (fresh _ _ _ _ _ _ _ E L) as (ex & ey & m & cells & zbin & keep & fuel & k & EM & PL & EK & LK & Ox & Oy & G & AR & LX & LY & SD & H).
  destruct (life_tidy _ _ _ L) as [A1 A2 A3 A4 A5 A6 A7 A8]. assert (NS : Grouped <> Stale) by discriminate. destruct (A8 eq_refl) as (m0 & cat & EM0 & EC & EG). assert (m0 = m) by congruence. subst m0. clear EM0.
  destruct (A7 NS _ _ EM EC) as (BC & cells0 & PL0). destruct (A6 NS _ EM _ _ PL0) as (_ & ws & P & EZ).
  assert (LC : List.length cat = List.length (sp_data s0)) by (rewrite EZ; unfold run_writes, points; rewrite ?map_length, ?seq_length, ?map_length; reflexivity).
  assert (AL : forall a b c d, set_data2 lx ly a b c = Ok d -> List.length (all_rows a b (given a c)) = List.length d /\ forall v, In v (map snd d) -> notnan v = true).
  { intros a b c d Q. rewrite (data_rows _ _ _ _ _ _ Q). unfold all_rows. rewrite !map_length. split; [reflexivity|]. intros v J. rewrite map_map in J. apply in_map_iff in J as (r & <- & J). apply filter_In in J as [_ J]. unfold complete in J. apply andb_prop in J. apply J. }
  unfold replace_data in R. rewrite LX, LY in R. destruct (set_data2 lx ly xs' ys' zs') as [data|] eqn:SD'; [|discriminate R]. cbn [bind] in R. apply ok_inj in R. subst s1.
  destruct (AL _ _ _ _ SD) as [L1 N1]. destruct (AL _ _ _ _ SD') as [L2 N2]. rewrite L1, L2. unfold build_grouped. cbn [sp_mesh]. rewrite EM, EC. unfold zvalues. cbn [sp_data]. rewrite map_length, LC. split.
  - intro D. destruct (Nat.eqb (List.length (sp_data s0)) (List.length data)) eqn:Q; [apply Nat.eqb_eq in Q; congruence|reflexivity].
  - intro D. rewrite D, Nat.eqb_refl. eexists. split; [reflexivity|].
    match goal with |- agg FCount ?s2 = _ /\ _ => assert (EA : agg FCount s2 = agg FCount s) end.
    { unfold agg. cbn [sp_groups sp_mesh sp_clim]. rewrite EG, EM, PL. destruct (cell_filter _ _ _ _) as [kp|]; [|reflexivity]. cbn [bind the_fcn]. unfold zvalues. cbn [sp_data].
      change (FOther (@count XR _)) with (FOther (the_fcn (T := XR) FCount (map snd data))) at 1. change (FOther (@count XR _)) with (FOther (the_fcn (T := XR) FCount (map snd (sp_data s0)))) at 1.
      rewrite (agg_same FCount _ _ _ _ (map snd data)), (agg_same FCount _ _ _ _ (map snd (sp_data s0))). apply counts_by_position; [rewrite !map_length; exact D|exact N1|exact N2]. }
    split; [exact EA|]. unfold draw. rewrite EA. destruct (agg FCount s) as [C|]; [|reflexivity]. cbn [bind]. unfold cells_of. cbn [sp_mesh]. rewrite EM, PL. destruct (Nat.eqb _ _); [|reflexivity]. f_equal. unfold patch_of. cbn [sp_logx sp_logy]. rewrite LX, LY. reflexivity.
Qed.
(** C200: making the mesh again after new data uses the initial bins of the first data: it is refused if a complete new row lies outside them, and otherwise the picture is right
    once the groups are built ([C198_rectangles_show_their_rows] covers such plots). *)
Theorem C200_new_mesh_old_bins : forall lx ly xs ys zs s0 b s xs' ys' zs' s1 fuel m sched s2 e ex ey, started lx ly xs ys zs s0 -> life s0 b s -> replace_data xs' ys' zs' s = Ok s1 ->
  sp_ex s0 = map Fin ex -> sp_ey s0 = map Fin ey -> (0 < nbin ex)%nat -> (0 < nbin ey)%nat -> (forall l, Permutation (sched l) l) -> initialize fuel m sched s1 = Some (s2, e) ->
  ((forall x y z, In (x, y, z) (combine (combine xs' ys') (given xs' zs')) -> complete (x, y, z) = true -> region ex ey (coord lx x, coord ly y)) ->
     e = None /\ exists s3, build_grouped s2 = Ok s3 /\ life s1 Grouped s3 /\ started lx ly xs' ys' zs' s1)
  /\ ((exists x y z, In (x, y, z) (combine (combine xs' ys') (given xs' zs')) /\ complete (x, y, z) = true /\ ~ region ex ey (coord lx x, coord ly y)) -> e = Some TypeError).
Proof.
  intros lx ly xs ys zs s0 b s xs' ys' zs' s1 fuel m sched s2 e ex ey E L R EX EY BX BY PS I.
  assert (ST : started lx ly xs' ys' zs' s1) by exact (by_set_data _ _ _ _ _ _ _ _ _ _ _ _ E L R).
  destruct (started_inv _ _ _ _ _ _ ST) as (LX & LY & SD & ex' & ey' & EX' & EY' & Ox & Oy).
  destruct (life_tidy _ _ _ L) as [A1 A2 A3 A4 A5 _ _ _].
  assert (S1 : sp_ex s1 = sp_ex s /\ sp_ey s1 = sp_ey s) by (unfold replace_data in R; destruct (set_data2 _ _ _ _ _); [|discriminate R]; cbn [bind] in R; apply ok_inj in R; subst s1; auto). destruct S1 as [S1 S2].
  assert (INJ : forall u v : list Rdefinitions.R, map Fin u = map Fin v -> u = v) by (induction u as [|a u IH]; intros [|c v] Q; try discriminate Q; [reflexivity|]; injection Q as -> Q; f_equal; apply IH, Q).
  assert (ex' = ex) by (apply INJ; congruence). assert (ey' = ey) by (apply INJ; congruence). subst ex' ey'.
  assert (RG : forall p, In p (points s1) <-> exists x y z, In (x, y, z) (combine (combine xs' ys') (given xs' zs')) /\ complete (x, y, z) = true /\ p = (coord lx x, coord ly y)).
  { intro p. unfold points. rewrite (data_rows _ _ _ _ _ _ SD), map_map, in_map_iff. cbn [fst]. split.
    - intros ([[x y] z] & Q & J). apply filter_In in J as [J C]. exists x, y, z. split; [exact J|]. split; [exact C|]. symmetry. exact Q.
    - intros (x & y & z & J & C & ->). exists (x, y, z). split; [reflexivity|]. apply filter_In. split; assumption. }
  assert (LF : life s1 Meshed s2) by exact (meshed _ _ _ _ _ _ _ _ (born s1) PS I).
  unfold initialize in I. rewrite EX', EY' in I. destruct (generate_mesh fuel m (map Fin ex) (map Fin ey) (points s1)) as [[cells|]|e0] eqn:G; [|discriminate I|].
  2: { exfalso. unfold generate_mesh in G. destruct (initialize_bins (map Fin ex) (map Fin ey)) eqn:Q; [|discriminate G].
       assert (J : In (cell0 ex ey (0, 0)%nat) (initialize_bins (map Fin ex) (map Fin ey))) by (rewrite initial_cells; apply in_map, in_grid; lia).
       rewrite Q in J. destruct J. }
  cbv zeta in I. set (ws := sched (writes cells (points s1))) in *. assert (P : Permutation ws (writes cells (points s1))) by apply PS.
  assert (CV := C127_every_datum_must_be_inside _ _ _ _ _ _ _ Ox Oy G P). split.
  - intro AR. assert (AR' : forall p, In p (points s1) -> region ex ey p) by (intros p J; apply RG in J as (x & y & z & J & C & ->); exact (AR x y z J C)).
    assert (BC := proj1 CV AR'). rewrite BC in I. assert (e = None) by congruence. split; [assumption|].
    assert (B3 : exists s3, build_grouped s2 = Ok s3).
    { assert (s2 = with_mesh s1 (mkMesh (Some (cells, run_writes (List.length (points s1)) ws)) (Some (run_writes (List.length (points s1)) ws)) None None)) by congruence. subst s2.
      unfold build_grouped. cbn [sp_mesh with_mesh sm_cat]. unfold zvalues. cbn [sp_data with_mesh]. unfold run_writes, points. rewrite !map_length, seq_length, Nat.eqb_refl. eauto. }
    destruct B3 as (s3 & B3). exists s3. split; [exact B3|]. split; [exact (grouped s1 Meshed _ _ LF B3)|exact ST].
  - intros (x & y & z & J & C & NR). assert (BC := proj2 CV). destruct (build_cat (run_writes (List.length (points s1)) ws)) as [cat|e1] eqn:Q.
    + exfalso. apply NR. assert (IP : In (coord lx x, coord ly y) (points s1)) by (apply RG; eauto 6). destruct (classic_region ex ey (coord lx x, coord ly y)) as [Y|N]; [exact Y|]. assert (X : @Ok (list Z) cat = Err TypeError) by (apply BC; eauto). discriminate X.
    + assert (e1 = TypeError) by (unfold build_cat in Q; destruct (existsb _ _) in Q; congruence). congruence.
Qed.
(** Two rows are replaced by two rows far away: the picture still shows both in the only cell, [0, 1.01) x [0, 1.01), where neither lies. *)
Example C200_ex : exists s s1 s2, life ex_plot Grouped s /\ replace_data [Fin 8; Fin 9] [Fin 8; Fin 9] None s = Ok s1 /\ build_grouped s1 = Ok s2
  /\ (exists patches p, draw FCount s2 = Ok patches /\ nth_error patches 0 = Some p /\ pt_v p = Some (Fin 2))
  /\ (exists s3, replace_data [Fin 8] [Fin 9] None s = Ok s3 /\ build_grouped s3 = Err ValueError)
  /\ exists s4, replace_data [Fin (1/2); Fin 0] [Fin (1/2); Fin 0] None s = Ok s4 /\ started false false [Fin (1/2); Fin 0] [Fin (1/2); Fin 0] None s4.
Proof.
  destruct C198_ex as (s & LF & patches & p & ED & NP & V). exists s.
  assert (SN : sane (Edges (map Fin [0; 1]))) by (exists [0; 1]; split; [reflexivity|apply ordered_two; lra]). assert (ST := by_constructor _ _ _ _ _ _ _ _ SN SN ex_new).
  destruct (life_tidy ex_plot Grouped s LF) as [Q1 Q2 Q3 _ _ _ _ _].
  assert (RD : forall a b, exists s1, replace_data [Fin a; Fin b] [Fin a; Fin b] None s = Ok s1).
  { intros a b. unfold replace_data. rewrite Q1, Q2. cbn [ex_plot sp_logx sp_logy]. destruct (set_data2 false false [Fin a; Fin b] [Fin a; Fin b] None) as [d|] eqn:SD; [cbn [bind]; eauto|]. unfold set_data2 in SD. cbn [combine map] in SD. rewrite fin_a1 in SD. discriminate SD. }
  assert (FC : draw FCount s = draw FDefault s).
  { assert (TF : the_fcn (T := XR) FDefault (zvalues s) = the_fcn FCount (zvalues s)).
    { unfold the_fcn. replace (List.length (distinct (filter notnan (zvalues s)))) with 1%nat; [reflexivity|]. symmetry. apply (distinct_same _ 1); [unfold zvalues; rewrite Q3; discriminate|]. intros z J. unfold zvalues in J. rewrite Q3 in J. destruct J as [<-|[<-|[]]]; reflexivity. }
    unfold draw, agg. rewrite TF. reflexivity. }
  destruct (RD 8 9) as (s1 & R1).
  destruct (proj2 (C200_regrouping_ignores_coordinates_refuted _ _ _ _ _ _ _ _ _ _ _ ST LF R1) eq_refl) as (s2 & B2 & _ & D2). exists s1, s2. split; [exact LF|]. split; [exact R1|]. split; [exact B2|].
  split; [exists patches, p; rewrite D2, FC; auto|]. split.
  - assert (R3 : exists s3, replace_data [Fin 8] [Fin 9] None s = Ok s3).
    { unfold replace_data. rewrite Q1, Q2. cbn [ex_plot sp_logx sp_logy]. destruct (set_data2 false false [Fin 8] [Fin 9] None) as [d|] eqn:SD; [cbn [bind]; eauto|]. unfold set_data2 in SD. cbn [combine map] in SD. rewrite fin_a1 in SD. discriminate SD. }
    destruct R3 as (s3 & R3). exists s3. split; [exact R3|]. apply (proj1 (C200_regrouping_ignores_coordinates_refuted _ _ _ _ _ _ _ _ _ _ _ ST LF R3)). discriminate.
  - destruct (RD (1/2) 0) as (s4 & R4). exists s4. split; [exact R4|]. exact (by_set_data _ _ _ _ _ _ _ _ _ _ _ _ ST LF R4).
Qed.
