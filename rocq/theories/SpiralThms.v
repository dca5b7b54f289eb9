(** The adaptive mesh: what a user can rely on. *)
From Coq Require Import Reals List Bool Arith ZArith Lra Lia Permutation Sorted String Psatz.
From Verif Require Import Py Num Sort Activity ActivityThms Hist HistThms HistMoreThms Spiral.
Import ListNotations.
Open Scope R_scope.

(* ------------------------------------------------------------------ specification *)
(** the rectangle spanned by the edges, closed below and open above *)
Definition region (ex ey : list R) (p : XR * XR) : Prop :=
  exists x y, p = (Fin x, Fin y) /\ nth 0 ex 0 <= x < nth (nbin ex) ex 0 /\ nth 0 ey 0 <= y < nth (nbin ey) ey 0.
(** p lies in cell c *)
Definition inside (c : box XR) (p : XR * XR) : Prop :=
  exists a b a' b' x y, c = mk_box (Fin a) (Fin b) (Fin a') (Fin b') /\ p = (Fin x, Fin y) /\ a <= x < b /\ a' <= y < b'.
(** how often the point (x, y) occurs *)
Definition same (x y : R) (p : XR * XR) : bool := match p with (Fin a, Fin b) => Reqb a x && Reqb b y | _ => false end.
Definition copies (x y : R) (data : list (XR * XR)) : nat := tally (same x y) data.

Definition real_box (c : box XR) : Prop := exists a b a' b', c = mk_box (Fin a) (Fin b) (Fin a') (Fin b').
Lemma in_cell_fin a b a' b' x y :
  in_cell (mk_box (Fin a) (Fin b) (Fin a') (Fin b')) (Fin x, Fin y) = Rleb a x && Rltb x b && Rleb a' y && Rltb y b'.
Proof. unfold in_cell. cbn [bx0 bx1 by0 by1 fst snd]. rewrite !fin_leb, !fin_ltb. reflexivity. Qed.
Lemma in_cell_real c p : real_box c -> in_cell c p = true -> exists x y, p = (Fin x, Fin y).
Proof.
  intros [a [b [a' [b' ->]]]]. destruct p as [u v]. unfold in_cell. cbn [bx0 bx1 by0 by1 fst snd]. rewrite !andb_true_iff. intros [[[H1 H2] H3] H4].
  destruct u; destruct v; try discriminate; eauto.
Qed.
Lemma in_cell_inside c p : real_box c -> in_cell c p = true <-> inside c p.
Proof.
  intro RB. split.
  - intro H. destruct (in_cell_real c p RB H) as [x [y ->]]. destruct RB as [a [b [a' [b' ->]]]]. rewrite in_cell_fin, !andb_true_iff, !Rleb_true, !Rltb_true in H.
    exists a, b, a', b', x, y. tauto.
  - intros [a [b [a' [b' [x [y [-> [-> H]]]]]]]]. rewrite in_cell_fin, !andb_true_iff, !Rleb_true, !Rltb_true. tauto.
Qed.
Lemma half_fin a b : half (Fin a) (Fin b) = Fin ((a + b) / 2).
Proof. unfold half. rewrite fin_ofQ, fin_add, fin_mul. f_equal. field. Qed.
Lemma split_real c : real_box c -> Forall real_box (split_cell c).
Proof.
  intros [a [b [a' [b' ->]]]]. unfold split_cell. cbn [bx0 bx1 by0 by1]. rewrite !half_fin. repeat constructor; unfold real_box; eauto 10.
Qed.
Lemma split_tally c p : real_box c -> tally (fun q => in_cell q p) (split_cell c) = if in_cell c p then 1%nat else 0%nat.
Proof.
  intros RB. pose proof (split_real c RB) as SR.
  destruct p as [u v]. destruct u as [x| | |]; [destruct v as [y| | |]|..];
    try (replace (in_cell c _) with false;
         [|symmetry; apply not_true_is_false; intro H; destruct (in_cell_real _ _ RB H) as [? [? E]]; discriminate];
         unfold tally; replace (filter _ (split_cell c)) with (@nil (box XR)); [reflexivity|];
         symmetry; induction SR as [|q l Rq SR IH]; [reflexivity|]; cbn [filter];
         destruct (in_cell q _) eqn:E; [destruct (in_cell_real _ _ Rq E) as [? [? E2]]; discriminate|exact IH]).
  destruct RB as [a [b [a' [b' ->]]]]. unfold split_cell. cbn [bx0 bx1 by0 by1]. rewrite !half_fin. unfold tally. cbn [filter].
  rewrite !in_cell_fin.
  assert (D : forall s t u, (Rleb s u && Rltb u t) = (Rleb s u && Rltb u ((s + t) / 2)) || (Rleb ((s + t) / 2) u && Rltb u t)
             /\ ((Rleb s u && Rltb u ((s + t) / 2)) && (Rleb ((s + t) / 2) u && Rltb u t)) = false).
  { intros s t u.
    destruct (Rleb s u) eqn:H1; destruct (Rltb u t) eqn:H2; destruct (Rleb ((s + t) / 2) u) eqn:H3; destruct (Rltb u ((s + t) / 2)) eqn:H4;
      try (split; reflexivity); exfalso;
      repeat match goal with H : Rleb _ _ = true |- _ => apply (proj1 (Rleb_true _ _)) in H | H : Rleb _ _ = false |- _ => apply (proj1 (Rleb_false _ _)) in H
                          | H : Rltb _ _ = true |- _ => apply (proj1 (Rltb_true _ _)) in H | H : Rltb _ _ = false |- _ => apply (proj1 (Rltb_false _ _)) in H end; lra. }
  destruct (D a b x) as [X1 X2]. destruct (D a' b' y) as [Y1 Y2].
  rewrite <- !andb_assoc. rewrite !(andb_assoc (Rleb _ x)). rewrite X1, Y1.
  destruct (Rleb a x && Rltb x ((a + b) / 2)); destruct (Rleb ((a + b) / 2) x && Rltb x b); try discriminate X2;
  destruct (Rleb a' y && Rltb y ((a' + b') / 2)); destruct (Rleb ((a' + b') / 2) y && Rltb y b'); try discriminate Y2; reflexivity.
Qed.
Lemma tally_app {X} (p : X -> bool) a b : tally p (a ++ b) = (tally p a + tally p b)%nat.
Proof. unfold tally. rewrite filter_app, app_length. reflexivity. Qed.
Lemma tally_split {X} (p q : X -> bool) l : (tally p (filter q l) + tally p (filter (fun x => negb (q x)) l))%nat = tally p l.
Proof. induction l as [|x l IH]; [reflexivity|]. cbn [filter]. destruct (q x); cbn [negb]; rewrite !tally_cons; lia. Qed.
Lemma flat_split_tally p l : Forall real_box l -> tally (fun q => in_cell q p) (flat_map split_cell l) = tally (fun q => in_cell q p) l.
Proof.
  intro F. induction F as [|c l Rc F IH]; [reflexivity|]. cbn [flat_map]. rewrite tally_app, split_tally, IH, tally_cons by exact Rc. reflexivity.
Qed.
Lemma real_filter q l : Forall real_box l -> Forall real_box (filter q l).
Proof. intro F. apply Forall_forall. intros c I. apply filter_In in I. rewrite Forall_forall in F. apply F, I. Qed.
Lemma real_flat l : Forall real_box l -> Forall real_box (flat_map split_cell l).
Proof. intro F. induction F as [|c l Rc F IH]; [constructor|]. cbn [flat_map]. apply Forall_app. split; [apply split_real, Rc|exact IH]. Qed.

Lemma refine_inv m data fuel : forall done active out, Forall real_box done -> Forall real_box active ->
  Forall (fun c => overfull m data c = false) done -> refine fuel m data done active = Some out ->
  Forall real_box out /\ Forall (fun c => overfull m data c = false) out
  /\ forall p, tally (fun c => in_cell c p) out = tally (fun c => in_cell c p) (done ++ active).
Proof.
  assert (Base : forall done active : list (box XR), Forall real_box done -> Forall real_box active -> Forall (fun c => overfull m data c = false) done ->
    filter (overfull m data) active = [] -> Forall real_box (done ++ active) /\ Forall (fun c => overfull m data c = false) (done ++ active)).
  { intros done active Rd Ra Od E. split; apply Forall_app; split; try assumption. apply Forall_forall. intros c I. apply not_true_is_false. intro X.
    assert (J : In c (filter (overfull m data) active)) by (apply filter_In; auto). rewrite E in J. destruct J. }
  induction fuel as [|fuel IH]; intros done active out Rd Ra Od E; cbn [refine] in E.
  - destruct (filter (overfull m data) active) as [|c big] eqn:F; [|discriminate]. injection E as <-.
    destruct (Base done active Rd Ra Od F). auto.
  - destruct (filter (overfull m data) active) as [|c big] eqn:F; [injection E as <-; destruct (Base done active Rd Ra Od F); auto|].
    rewrite <- F in E. apply IH in E.
    + destruct E as [E1 [E2 E3]]. split; [exact E1|]. split; [exact E2|]. intro p. rewrite E3, !tally_app, flat_split_tally by (apply real_filter; exact Ra).
      rewrite <- (tally_split (fun c => in_cell c p) (overfull m data) active). lia.
    + apply Forall_app. split; [exact Rd|apply real_filter; exact Ra].
    + apply real_flat, real_filter, Ra.
    + apply Forall_app. split; [exact Od|]. apply Forall_forall. intros q I. apply filter_In in I. destruct I as [_ I]. apply negb_true_iff in I. exact I.
Qed.

(* ------------------------------------------------------------------ the initial cells *)
Lemma pairs_nth (e : list R) : pairs (map Fin e) = map (fun i => (Fin (nth i e 0), Fin (nth (S i) e 0))) (seq 0 (nbin e)).
Proof. apply intervals_nth. Qed.
Definition cell0 (ex ey : list R) (k : nat * nat) : box XR :=
  mk_box (Fin (nth (fst k) ex 0)) (Fin (nth (S (fst k)) ex 0)) (Fin (nth (snd k) ey 0)) (Fin (nth (S (snd k)) ey 0)).
Lemma prod_map {A B C D} (f : A -> C) (g : B -> D) l m : list_prod (map f l) (map g m) = map (fun q => (f (fst q), g (snd q))) (list_prod l m).
Proof.
  induction l as [|a l IH]; [reflexivity|]. cbn [map list_prod]. rewrite map_app, IH, !map_map. reflexivity.
Qed.
Lemma initial_cells ex ey : initialize_bins (map Fin ex) (map Fin ey) = map (cell0 ex ey) (grid ex ey).
Proof. unfold initialize_bins. rewrite !pairs_nth, prod_map, map_map. reflexivity. Qed.
Lemma initial_real ex ey : Forall real_box (initialize_bins (map Fin ex) (map Fin ey)).
Proof. rewrite initial_cells. apply Forall_map, Forall_forall. intros k _. unfold real_box, cell0. eauto 10. Qed.
(** half-open steps on one axis *)
Definition step (e : list R) (i : nat) (x : R) : bool := Rleb (nth i e 0) x && Rltb x (nth (S i) e 0).
Lemma steps_unique e x : ordered e -> tally (fun i => step e i x) (seq 0 (nbin e)) = if Rleb (nth 0 e 0) x && Rltb x (nth (nbin e) e 0) then 1%nat else 0%nat.
Proof.
  intro O. assert (G : forall n, (n <= nbin e)%nat -> tally (fun i => step e i x) (seq 0 n) = if Rleb (nth 0 e 0) x && Rltb x (nth n e 0) then 1%nat else 0%nat).
  { induction n as [|n IH]; intro L.
    - unfold tally. cbn [seq filter List.length]. destruct (Rle_dec (nth 0 e 0) x) as [H|H].
      + rewrite (proj2 (Rltb_false x (nth 0 e 0))) by lra. rewrite andb_false_r. reflexivity.
      + rewrite (proj2 (Rleb_false (nth 0 e 0) x)) by lra. reflexivity.
    - rewrite seq_S, tally_app, IH by lia. cbn [plus]. unfold tally at 1. cbn [filter]. unfold step.
      unfold nbin in L. assert (O1 : nth 0 e 0 <= nth n e 0) by (apply O; lia). assert (O2 : nth n e 0 <= nth (S n) e 0) by (apply O; lia).
      destruct (Rle_dec (nth 0 e 0) x) as [H0|H0]; [rewrite (proj2 (Rleb_true (nth 0 e 0) x)) by lra|rewrite (proj2 (Rleb_false (nth 0 e 0) x)) by lra];
      (destruct (Rle_dec (nth n e 0) x) as [Hn|Hn]; [rewrite (proj2 (Rleb_true (nth n e 0) x)), (proj2 (Rltb_false x (nth n e 0))) by lra|rewrite (proj2 (Rleb_false (nth n e 0) x)), (proj2 (Rltb_true x (nth n e 0))) by lra]);
      (destruct (Rlt_dec x (nth (S n) e 0)) as [Hs|Hs]; [rewrite (proj2 (Rltb_true x (nth (S n) e 0))) by lra|rewrite (proj2 (Rltb_false x (nth (S n) e 0))) by lra]);
      cbn; try reflexivity; exfalso; lra. }
  apply G. lia.
Qed.
Lemma tally_prod {A B} (p : A -> bool) (q : B -> bool) l m : tally (fun k => p (fst k) && q (snd k)) (list_prod l m) = (tally p l * tally q m)%nat.
Proof.
  induction l as [|a l IH]; [reflexivity|]. cbn [list_prod]. rewrite tally_app, IH, tally_map, tally_cons. cbn [fst snd]. destruct (p a); cbn [andb].
  - change (fun x : B => q x) with q. lia.
  - replace (tally (fun _ : B => false) m) with 0%nat; [lia|]. clear. induction m as [|b m IH]; [reflexivity|]. rewrite tally_cons. exact IH.
Qed.
Lemma initial_tally ex ey p : ordered ex -> ordered ey ->
  (region ex ey p -> tally (fun c => in_cell c p) (initialize_bins (map Fin ex) (map Fin ey)) = 1%nat)
  /\ (~ region ex ey p -> tally (fun c => in_cell c p) (initialize_bins (map Fin ex) (map Fin ey)) = 0%nat).
Proof.
  intros Ox Oy. destruct p as [u v].
  assert (NF : (forall x y, (u, v) <> (Fin x, Fin y)) -> tally (fun c => in_cell c (u, v)) (initialize_bins (map Fin ex) (map Fin ey)) = 0%nat).
  { intro N. pose proof (initial_real ex ey) as F. induction F as [|c l Rc F IH]; [reflexivity|]. rewrite tally_cons, IH.
    destruct (in_cell c (u, v)) eqn:E; [|reflexivity]. destruct (in_cell_real _ _ Rc E) as [x [y E2]]. exfalso. exact (N x y E2). }
  destruct u as [x| | |]; [destruct v as [y| | |]|..];
    try (split; [intros [? [? [E _]]]; discriminate|intros _; apply NF; intros ? ? E; discriminate]).
  clear NF. assert (T : tally (fun c => in_cell c (Fin x, Fin y)) (initialize_bins (map Fin ex) (map Fin ey))
     = Nat.mul (if Rleb (nth 0 ex 0) x && Rltb x (nth (nbin ex) ex 0) then 1%nat else 0%nat) (if Rleb (nth 0 ey 0) y && Rltb y (nth (nbin ey) ey 0) then 1%nat else 0%nat)).
  { rewrite initial_cells, tally_map. unfold grid. rewrite <- (steps_unique ex x Ox), <- (steps_unique ey y Oy), <- tally_prod. apply tally_ext.
    intros k _. unfold cell0. rewrite in_cell_fin. unfold step. rewrite !andb_assoc. reflexivity. }
  rewrite T. split; intro H.
  - destruct H as [x0 [y0 [E [Hx Hy]]]]. injection E as <- <-. rewrite !(proj2 (Rleb_true _ _)), !(proj2 (Rltb_true _ _)) by lra. reflexivity.
  - destruct (Rleb (nth 0 ex 0) x && Rltb x (nth (nbin ex) ex 0)) eqn:X; [|reflexivity]. destruct (Rleb (nth 0 ey 0) y && Rltb y (nth (nbin ey) ey 0)) eqn:Y; [|reflexivity].
    exfalso. apply H. apply andb_prop in X. apply andb_prop in Y. rewrite Rleb_true, Rltb_true in X, Y. exists x, y. auto.
Qed.
Lemma generate_inv fuel m ex ey data mesh : generate_mesh fuel m (map Fin ex) (map Fin ey) data = Ok (Some mesh) ->
  exists cells, cells = initialize_bins (map Fin ex) (map Fin ey) /\ refine fuel m (filter (in_mesh cells) data) [] cells = Some mesh
  /\ Forall real_box mesh /\ Forall (fun c => overfull m (filter (in_mesh cells) data) c = false) mesh
  /\ forall p, tally (fun c => in_cell c p) mesh = tally (fun c => in_cell c p) cells.
Proof.
  unfold generate_mesh. intro E. exists (initialize_bins (map Fin ex) (map Fin ey)). split; [reflexivity|]. pose proof (initial_real ex ey) as F.
  destruct (initialize_bins (map Fin ex) (map Fin ey)) as [|c l] eqn:I; [discriminate|]. rewrite <- I in *. clear I c l.
  destruct (refine fuel m (filter (in_mesh (initialize_bins (map Fin ex) (map Fin ey))) data) [] (initialize_bins (map Fin ex) (map Fin ey))) as [out|] eqn:RF; [|discriminate].
  destruct (refine_inv _ _ _ _ _ _ (Forall_nil _) F (Forall_nil _) RF) as [R1 [R2 R3]]. cbn [app] in R3.
  assert (FF : filter finite_cell out = out).
  { clear - R1. induction R1 as [|c l [a [b [a' [b' ->]]]] F IH]; [reflexivity|]. cbn [filter]. change (finite_cell (mk_box (Fin a) (Fin b) (Fin a') (Fin b'))) with true. cbn iota. rewrite IH. reflexivity. }
  cbn [option_map] in E. rewrite FF in E. injection E as <-. auto.
Qed.
Lemma one_index {X} (f : X -> bool) l : tally f l = 1%nat -> exists k c, nth_error l k = Some c /\ f c = true /\ forall k' c', nth_error l k' = Some c' -> f c' = true -> k' = k.
Proof.
  induction l as [|x l IH]; intro H; [discriminate|]. rewrite tally_cons in H. destruct (f x) eqn:E.
  - exists 0%nat, x. split; [reflexivity|]. split; [exact E|]. intros [|k'] c' N Fc; [reflexivity|]. exfalso. cbn in N. apply nth_error_In in N.
    assert (J : In c' (filter f l)) by (apply filter_In; auto). unfold tally in H. destruct (filter f l); [destruct J|cbn in H; lia].
  - destruct (IH H) as [k [c [N [Fc U]]]]. exists (S k), c. split; [exact N|]. split; [exact Fc|]. intros [|k'] c' N' Fc'; cbn in N'; [injection N' as <-; congruence|]. f_equal. eauto.
Qed.
Lemma no_index {X} (f : X -> bool) l : tally f l = 0%nat -> forall c, In c l -> f c = false.
Proof.
  intros H c I. apply not_true_is_false. intro E. assert (J : In c (filter f l)) by (apply filter_In; auto). unfold tally in H. destruct (filter f l); [destruct J|discriminate].
Qed.

(** C84: the cells of the finished mesh partition the outer rectangle. *)
Theorem C84_cells_partition_region : forall fuel m (ex ey : list R) data mesh, ordered ex -> ordered ey ->
  generate_mesh fuel m (map Fin ex) (map Fin ey) data = Ok (Some mesh) ->
  forall p, (region ex ey p -> exists! k, exists c, nth_error mesh k = Some c /\ inside c p)
         /\ (~ region ex ey p -> forall c, In c mesh -> ~ inside c p).
Proof.
  intros fuel m ex ey data mesh Ox Oy E p. destruct (generate_inv _ _ _ _ _ _ E) as [cells [-> [_ [RM [_ T]]]]].
  destruct (initial_tally ex ey p Ox Oy) as [I1 I2]. rewrite Forall_forall in RM. split; intro H.
  - specialize (I1 H). rewrite <- T in I1. destruct (one_index _ _ I1) as [k [c [N [Fc U]]]]. exists k. split.
    + exists c. split; [exact N|]. apply in_cell_inside; [apply RM; eapply nth_error_In; exact N|exact Fc].
    + intros k' [c' [N' Ic']]. symmetry. eapply U; [exact N'|]. apply in_cell_inside; [apply RM; eapply nth_error_In; exact N'|exact Ic'].
  - specialize (I2 H). rewrite <- T in I2. intros c Ic X. apply in_cell_inside in X; [|apply RM, Ic]. rewrite (no_index _ _ I2 c Ic) in X. discriminate.
Qed.

(* ------------------------------------------------------------------ numbering the data *)
Lemma fold_writes (k : nat) (ws : list (nat * Z)) (v0 : Z) : forall acc, (forall w, In w ws -> fst w = k -> snd w = v0) ->
  fold_left (fun acc w => if Nat.eqb (fst w) k then snd w else acc) ws acc = if existsb (fun w => Nat.eqb (fst w) k) ws then v0 else acc.
Proof.
  induction ws as [|w ws IH]; intros acc H; [reflexivity|]. cbn [fold_left existsb]. rewrite IH by (intros; apply H; [right; assumption|assumption]).
  destruct (Nat.eqb (fst w) k) eqn:E; cbn [orb]; [|reflexivity]. apply Nat.eqb_eq in E. rewrite (H w) by (auto; left; reflexivity). destruct (existsb _ ws); reflexivity.
Qed.
Lemma in_indexed {X} (l : list X) : forall s k x, In (k, x) (combine (seq s (List.length l)) l) <-> (s <= k)%nat /\ nth_error l (k - s) = Some x.
Proof.
  induction l as [|a l IH]; intros s k x; cbn [List.length seq combine].
  - split; [intros []|]. intros [_ H]. destruct (k - s)%nat; discriminate.
  - cbn [In]. rewrite IH. split.
    + intros [E|[L N]]; [injection E as <- <-; rewrite Nat.sub_diag; split; [lia|reflexivity]|]. split; [lia|]. replace (k - s)%nat with (S (k - S s)) by lia. exact N.
    + intros [L N]. destruct (Nat.eq_dec k s) as [->|D]; [rewrite Nat.sub_diag in N; injection N as ->; left; reflexivity|]. right. split; [lia|]. replace (k - s)%nat with (S (k - S s)) in N by lia. exact N.
Qed.
Lemma writes_in (mesh : list (box XR)) data k z : In (k, z) (writes mesh data) <-> exists i c p, z = Z.of_nat i /\ nth_error mesh i = Some c /\ nth_error data k = Some p /\ in_cell c p = true.
Proof.
  unfold writes. rewrite in_flat_map. split.
  - intros [[i c] [I J]]. apply in_indexed in I. destruct I as [_ I]. rewrite Nat.sub_0_r in I. apply in_map_iff in J. destruct J as [[k' p] [E J]]. injection E as <- <-.
    apply filter_In in J. destruct J as [J B]. apply in_indexed in J. destruct J as [_ J]. rewrite Nat.sub_0_r in J. cbn [fst snd] in *. exists i, c, p. auto.
  - intros [i [c [p [-> [N [M B]]]]]]. exists (i, c). split; [apply in_indexed; rewrite Nat.sub_0_r; split; [lia|exact N]|]. apply in_map_iff. exists (k, p). split; [reflexivity|].
    apply filter_In. split; [|exact B]. apply in_indexed. rewrite Nat.sub_0_r. split; [lia|exact M].
Qed.
(** C84: in whatever order the parallel loop writes, every datum in the rectangle gets the number of the one cell that holds it, every
    other datum the fill value -9999. *)
Theorem C84_bin_numbers : forall fuel m (ex ey : list R) data mesh ws, ordered ex -> ordered ey ->
  generate_mesh fuel m (map Fin ex) (map Fin ey) data = Ok (Some mesh) -> Permutation ws (writes mesh data) ->
  Forall2 (fun p z => (region ex ey p -> exists i c, z = Z.of_nat i /\ nth_error mesh i = Some c /\ inside c p) /\ (~ region ex ey p -> z = (-9999)%Z))
          data (run_writes (List.length data) ws).
Proof.
  intros fuel m ex ey data mesh ws Ox Oy E P. pose proof (C84_cells_partition_region _ _ _ _ _ _ Ox Oy E) as PR.
  destruct (generate_inv _ _ _ _ _ _ E) as [cells [_ [_ [RM _]]]]. rewrite Forall_forall in RM.
  assert (WI : forall k z, In (k, z) ws <-> exists i c p, z = Z.of_nat i /\ nth_error mesh i = Some c /\ nth_error data k = Some p /\ inside c p).
  { intros k z.
    assert (Q : In (k, z) ws <-> In (k, z) (writes mesh data)) by (split; apply Permutation_in; [exact P|apply Permutation_sym, P]). rewrite Q, writes_in.
    split; intros [i [c [p [-> [N [M B]]]]]]; exists i, c, p; (split; [reflexivity|split; [exact N|split; [exact M|]]]); apply (in_cell_inside c p); auto; apply RM; eapply nth_error_In; exact N. }
  assert (G : forall k p, nth_error data k = Some p ->
    let z := fold_left (fun acc w => if Nat.eqb (fst w) k then snd w else acc) ws fill in
    (region ex ey p -> exists i c, z = Z.of_nat i /\ nth_error mesh i = Some c /\ inside c p) /\ (~ region ex ey p -> z = (-9999)%Z)).
  { intros k p Nk z. destruct (PR p) as [PR1 PR2]. split; intro H.
    - destruct (PR1 H) as [i [[c [N I]] U]]. exists i, c. split; [|auto]. unfold z. rewrite (fold_writes k ws (Z.of_nat i)).
      + replace (existsb _ ws) with true; [reflexivity|]. symmetry. apply existsb_exists. exists (k, Z.of_nat i). split; [|apply Nat.eqb_refl]. apply WI. exists i, c, p. auto.
      + intros [k' z'] Iw Ek. cbn [fst snd] in *. subst k'. apply WI in Iw. destruct Iw as [i' [c' [p' [-> [N' [M' I']]]]]]. rewrite Nk in M'. injection M' as <-. f_equal. symmetry. apply U. eauto.
    - unfold z. rewrite (fold_writes k ws 0%Z).
      + replace (existsb _ ws) with false; [reflexivity|]. symmetry. apply not_true_is_false. intro X. apply existsb_exists in X. destruct X as [[k' z'] [Iw Ek]]. cbn [fst] in Ek. apply Nat.eqb_eq in Ek. subst k'.
        apply WI in Iw. destruct Iw as [i' [c' [p' [-> [N' [M' I']]]]]]. rewrite Nk in M'. injection M' as <-. apply (PR2 H c'); [eapply nth_error_In; exact N'|exact I'].
      + intros [k' z'] Iw Ek. cbn [fst snd] in *. subst k'. exfalso. apply WI in Iw. destruct Iw as [i' [c' [p' [-> [N' [M' I']]]]]]. rewrite Nk in M'. injection M' as <-. apply (PR2 H c'); [eapply nth_error_In; exact N'|exact I']. }
  unfold run_writes.
  assert (K : forall l s, (forall k p, nth_error l k = Some p -> nth_error data (s + k) = Some p) ->
     Forall2 (fun p z => (region ex ey p -> exists i c, z = Z.of_nat i /\ nth_error mesh i = Some c /\ inside c p) /\ (~ region ex ey p -> z = (-9999)%Z))
       l (map (fun k => fold_left (fun acc w => if Nat.eqb (fst w) k then snd w else acc) ws fill) (seq s (List.length l)))).
  { induction l as [|p l IH]; intros s H; [constructor|]. cbn [List.length seq map]. constructor.
    - apply G. rewrite <- (Nat.add_0_r s). apply H. reflexivity.
    - apply IH. intros k q N. replace (S s + k)%nat with (s + S k)%nat by lia. apply H. exact N. }
  apply (K data 0%nat). intros k p N. exact N.
Qed.
(** Any two schedules agree. *)
Theorem C84_schedule_independent : forall fuel m (ex ey : list R) data mesh ws ws', ordered ex -> ordered ey ->
  generate_mesh fuel m (map Fin ex) (map Fin ey) data = Ok (Some mesh) -> Permutation ws (writes mesh data) -> Permutation ws' (writes mesh data) ->
  run_writes (List.length data) ws = run_writes (List.length data) ws'.
Proof.
  intros fuel m ex ey data mesh ws ws' Ox Oy E P P'.
  pose proof (C84_bin_numbers _ _ _ _ _ _ _ Ox Oy E P) as F. pose proof (C84_bin_numbers _ _ _ _ _ _ _ Ox Oy E P') as F'.
  pose proof (C84_cells_partition_region _ _ _ _ _ _ Ox Oy E) as PR.
  assert (D : forall p : XR * XR, region ex ey p \/ ~ region ex ey p).
  { intros [[x| | |] [y| | |]]; try (right; intros [? [? [Q _]]]; discriminate).
    destruct (Rle_dec (nth 0 ex 0) x); [|right; intros [? [? [Q [H1 H2]]]]; injection Q as <- <-; lra].
    destruct (Rlt_dec x (nth (nbin ex) ex 0)); [|right; intros [? [? [Q [H1 H2]]]]; injection Q as <- <-; lra].
    destruct (Rle_dec (nth 0 ey 0) y); [|right; intros [? [? [Q [H1 H2]]]]; injection Q as <- <-; lra].
    destruct (Rlt_dec y (nth (nbin ey) ey 0)); [|right; intros [? [? [Q [H1 H2]]]]; injection Q as <- <-; lra].
    left. exists x, y. auto. }
  revert F F'. generalize (run_writes (List.length data) ws) (run_writes (List.length data) ws'). clear E P P'.
  induction data as [|p data IH]; intros l l' F F'; inversion F as [|? z ? t [A B] F1]; inversion F' as [|? z' ? t' [A' B'] F1']; subst; [reflexivity|].
  f_equal; [|apply IH; assumption]. destruct (D p) as [H|H]; [|rewrite (B H), (B' H); reflexivity].
  destruct (A H) as [i [c [-> [N I]]]]. destruct (A' H) as [i' [c' [-> [N' I']]]]. f_equal. destruct (proj1 (PR p) H) as [k [_ U]].
  transitivity k; [symmetry|]; apply U; eauto.
Qed.

(* ------------------------------------------------------------------ C85: at most [m] data in a cell *)
Lemma smallest_le (l : list R) d : (forall y, In y l -> exists s, smallest (map Fin l) d = Fin s /\ s <= y).
Proof.
  destruct l as [|x r]; [intros y []|]. unfold smallest. cbn [map].
  assert (G : forall r x, exists s, fold_left (fun m y : XR => if altb y m then y else m) (map Fin r) (Fin x) = Fin s /\ s <= x /\ forall y, In y r -> s <= y).
  { clear. induction r as [|y r IH]; intro x; cbn [map fold_left]; [exists x; split; [reflexivity|split; [lra|intros y []]]|].
    rewrite fin_ltb. destruct (Rltb y x) eqn:B; [apply (proj1 (Rltb_true _ _)) in B|apply (proj1 (Rltb_false _ _)) in B].
    - destruct (IH y) as [s [E [L F]]]. exists s. split; [exact E|]. split; [lra|]. intros z [<-|I]; [exact L|apply F, I].
    - destruct (IH x) as [s [E [L F]]]. exists s. split; [exact E|]. split; [lra|]. intros z [<-|I]; [lra|apply F, I]. }
  intros y I. destruct (G r x) as [s [E [L F]]]. exists s. split; [exact E|]. destruct I as [<-|I]; auto.
Qed.
Lemma largest_ge (l : list R) d : (forall y, In y l -> exists s, largest (map Fin l) d = Fin s /\ y <= s).
Proof.
  destruct l as [|x r]; [intros y []|]. unfold largest. cbn [map].
  assert (G : forall r x, exists s, fold_left (fun m y : XR => if altb m y then y else m) (map Fin r) (Fin x) = Fin s /\ x <= s /\ forall y, In y r -> y <= s).
  { clear. induction r as [|y r IH]; intro x; cbn [map fold_left]; [exists x; split; [reflexivity|split; [lra|intros y []]]|].
    rewrite fin_ltb. destruct (Rltb x y) eqn:B; [apply (proj1 (Rltb_true _ _)) in B|apply (proj1 (Rltb_false _ _)) in B].
    - destruct (IH y) as [s [E [L F]]]. exists s. split; [exact E|]. split; [lra|]. intros z [<-|I]; [exact L|apply F, I].
    - destruct (IH x) as [s [E [L F]]]. exists s. split; [exact E|]. split; [lra|]. intros z [<-|I]; [lra|apply F, I]. }
  intros y I. destruct (G r x) as [s [E [L F]]]. exists s. split; [exact E|]. destruct I as [<-|I]; auto.
Qed.
(** a datum of an initial cell is among the data that are counted *)
Lemma in_mesh_cell ex ey k x y : In k (grid ex ey) -> in_cell (cell0 ex ey k) (Fin x, Fin y) = true ->
  in_mesh (initialize_bins (map Fin ex) (map Fin ey)) (Fin x, Fin y) = true.
Proof.
  intros I H. unfold cell0 in H. rewrite in_cell_fin, !andb_true_iff, !Rleb_true, !Rltb_true in H. unfold in_mesh. rewrite initial_cells, !map_map.
  assert (M : forall f : nat * nat -> R, map (fun q => Fin (f q)) (grid ex ey) = map Fin (map f (grid ex ey))) by (intro f; rewrite map_map; reflexivity).
  cbn [cell0 bx0 bx1 by0 by1 fst snd].
  change (map (fun x0 => bx0 (cell0 ex ey x0)) (grid ex ey)) with (map (fun q : nat * nat => Fin (nth (fst q) ex 0)) (grid ex ey)).
  change (map (fun x0 => bx1 (cell0 ex ey x0)) (grid ex ey)) with (map (fun q : nat * nat => Fin (nth (S (fst q)) ex 0)) (grid ex ey)).
  change (map (fun x0 => by0 (cell0 ex ey x0)) (grid ex ey)) with (map (fun q : nat * nat => Fin (nth (snd q) ey 0)) (grid ex ey)).
  change (map (fun x0 => by1 (cell0 ex ey x0)) (grid ex ey)) with (map (fun q : nat * nat => Fin (nth (S (snd q)) ey 0)) (grid ex ey)).
  rewrite !M.
  destruct (smallest_le (map (fun q : nat * nat => nth (fst q) ex 0) (grid ex ey)) anan (nth (fst k) ex 0)) as [s1 [E1 L1]]; [apply in_map_iff; eauto|].
  destruct (largest_ge (map (fun q : nat * nat => nth (S (fst q)) ex 0) (grid ex ey)) anan (nth (S (fst k)) ex 0)) as [s2 [E2 L2]]; [apply in_map_iff; eauto|].
  destruct (smallest_le (map (fun q : nat * nat => nth (snd q) ey 0) (grid ex ey)) anan (nth (snd k) ey 0)) as [s3 [E3 L3]]; [apply in_map_iff; eauto|].
  destruct (largest_ge (map (fun q : nat * nat => nth (S (snd q)) ey 0) (grid ex ey)) anan (nth (S (snd k)) ey 0)) as [s4 [E4 L4]]; [apply in_map_iff; eauto|].
  rewrite E1, E2, E3, E4. rewrite !fin_leb, !fin_isfin, !andb_true_iff, !Rleb_true. repeat split; lra.
Qed.
Lemma tally_pos {X} (f : X -> bool) l : (exists c, In c l /\ f c = true) <-> (0 < tally f l)%nat.
Proof.
  unfold tally. split.
  - intros [c [I F]]. assert (J : In c (filter f l)) by (apply filter_In; auto). destruct (filter f l); [destruct J|cbn; lia].
  - intro H. destruct (filter f l) as [|c r] eqn:E; [cbn in H; lia|]. exists c. apply filter_In. rewrite E. left. reflexivity.
Qed.
Lemma in_mesh_of_cell ex ey c p : In c (initialize_bins (map Fin ex) (map Fin ey)) -> in_cell c p = true -> in_mesh (initialize_bins (map Fin ex) (map Fin ey)) p = true.
Proof.
  intros I H. assert (RC : real_box c) by (pose proof (initial_real ex ey) as F; rewrite Forall_forall in F; apply F, I).
  destruct (in_cell_real c p RC H) as [x [y ->]]. rewrite initial_cells in I. apply in_map_iff in I. destruct I as [k [<- I]]. eapply in_mesh_cell; eassumption.
Qed.
Lemma tally_sub {X} (p q : X -> bool) l : (forall x, In x l -> p x = true -> q x = true) -> (tally p l <= tally q l)%nat.
Proof.
  intro H. induction l as [|x l IH]; [cbn; lia|]. rewrite !tally_cons.
  assert (IH' : (tally p l <= tally q l)%nat) by (apply IH; intros; apply H; [right|]; assumption).
  destruct (p x) eqn:E; [rewrite (H x) by (auto; left; reflexivity); lia|destruct (q x); lia].
Qed.
Lemma tally_index {X} (f : X -> bool) (l : list X) (idx : list nat) : NoDup idx -> (forall k, In k idx -> exists p, nth_error l k = Some p /\ f p = true) -> (List.length idx <= tally f l)%nat.
Proof.
  intros ND H. assert (E : tally f l = List.length (filter (fun k => match nth_error l k with Some p => f p | None => false end) (seq 0 (List.length l)))).
  { clear. assert (G : forall l pre, tally f l = List.length (filter (fun k => match nth_error (pre ++ l) k with Some p => f p | None => false end) (seq (List.length pre) (List.length l)))).
    { induction l0 as [|x r IH]; intro pre; [reflexivity|]. rewrite tally_cons. cbn [List.length seq filter]. rewrite nth_error_app2, Nat.sub_diag by lia. cbn [nth_error].
      rewrite (IH (pre ++ [x])). rewrite app_length. cbn [List.length]. rewrite Nat.add_1_r. rewrite <- app_assoc. cbn [app]. destruct (f x); reflexivity. }
    apply (G l []). }
  rewrite E. apply NoDup_incl_length; [exact ND|]. intros k I. apply filter_In. destruct (H k I) as [p [N F]]. rewrite N. split; [|exact F]. apply in_seq.
  assert (k < List.length l)%nat by (apply nth_error_Some; rewrite N; discriminate). lia.
Qed.
Lemma index_list {X} (f : X -> bool) (l : list X) : exists idx, NoDup idx /\ List.length idx = tally f l /\ forall k, In k idx -> exists p, nth_error l k = Some p /\ f p = true.
Proof.
  induction l as [|x l [idx [ND [L H]]]]; [exists []; split; [constructor|split; [reflexivity|intros k []]]|].
  assert (ND' : NoDup (map S idx)) by (apply FinFun.Injective_map_NoDup; [intros a b; congruence|exact ND]).
  assert (H' : forall k, In k (map S idx) -> exists p, nth_error (x :: l) k = Some p /\ f p = true) by (intros k I; apply in_map_iff in I; destruct I as [j [<- I]]; apply H, I).
  rewrite tally_cons. destruct (f x) eqn:E.
  - exists (0%nat :: map S idx). split; [constructor; [intro I; apply in_map_iff in I; destruct I as [? [? _]]; discriminate|exact ND']|].
    split; [cbn; rewrite map_length, L; reflexivity|]. intros k [<-|I]; [exists x; auto|apply H', I].
  - exists (map S idx). split; [exact ND'|]. split; [rewrite map_length, L; reflexivity|exact H'].
Qed.
(** C85: of the data given, at most [m] lie in any one cell of the finished mesh. *)
Theorem C85_cells_respect_threshold : forall fuel m (ex ey : list R) data mesh, ordered ex -> ordered ey ->
  generate_mesh fuel m (map Fin ex) (map Fin ey) data = Ok (Some mesh) ->
  forall c idx, In c mesh -> NoDup idx -> (forall k, In k idx -> exists p, nth_error data k = Some p /\ inside c p) -> (List.length idx <= m)%nat.
Proof.
  intros fuel m ex ey data mesh Ox Oy E c idx Ic ND H. destruct (generate_inv _ _ _ _ _ _ E) as [cells [Ec [_ [RM [OM T]]]]]. rewrite Forall_forall in RM, OM.
  specialize (OM c Ic). unfold overfull in OM. apply Nat.ltb_ge in OM. eapply Nat.le_trans; [|exact OM].
  eapply Nat.le_trans; [apply (tally_index (in_cell c) data idx ND)|].
  - intros k I. destruct (H k I) as [p [N J]]. exists p. split; [exact N|]. apply (proj2 (in_cell_inside c p (RM c Ic))), J.
  - change (cell_count (filter (in_mesh cells) data) c) with (tally (in_cell c) (filter (in_mesh cells) data)). rewrite tally_filter. apply tally_sub.
    intros p _ B. rewrite B, andb_true_r. subst cells. assert (Q : (0 < tally (fun c => in_cell c p) mesh)%nat) by (apply tally_pos; eauto).
    rewrite T in Q. apply tally_pos in Q. destruct Q as [c0 [I0 B0]]. eapply in_mesh_of_cell; eassumption.
Qed.
(** ... and a cell is divided only when it holds more than [m]: if no initial cell does, the mesh is the initial one. *)
Theorem C85_no_needless_division : forall fuel m (ex ey : list R) data, (0 < nbin ex)%nat -> (0 < nbin ey)%nat ->
  (forall i j, (i < nbin ex)%nat -> (j < nbin ey)%nat -> exists idx, (List.length idx <= m)%nat /\
     forall k p, nth_error data k = Some p -> inside (cell0 ex ey (i, j)) p -> In k idx) ->
  generate_mesh fuel m (map Fin ex) (map Fin ey) data = Ok (Some (map (cell0 ex ey) (grid ex ey))).
Proof.
  intros fuel m ex ey data Nx Ny H. unfold generate_mesh. rewrite initial_cells.
  assert (NE : In (0%nat, 0%nat) (grid ex ey)) by (unfold grid; apply in_prod; apply in_seq; lia).
  assert (F : forall cells, filter (overfull m (filter (in_mesh cells) data)) (map (cell0 ex ey) (grid ex ey)) = []).
  { intro cells. destruct (filter _ _) as [|c r] eqn:E; [reflexivity|]. exfalso.
    assert (I : In c (c :: r)) by (left; reflexivity). rewrite <- E in I. apply filter_In in I. destruct I as [I OV]. apply in_map_iff in I. destruct I as [[i j] [<- I]].
    unfold grid in I. apply in_prod_iff in I. destruct I as [Ii Ij]. apply in_seq in Ii, Ij. destruct (H i j) as [idx [L C]]; try lia.
    unfold overfull in OV. apply Nat.ltb_lt in OV. change (cell_count ?d ?c) with (tally (in_cell c) d) in OV. rewrite tally_filter in OV.
    destruct (index_list (fun p => in_mesh cells p && in_cell (cell0 ex ey (i, j)) p) data) as [idx' [ND [L' C']]]. rewrite <- L' in OV.
    assert (Q : (List.length idx' <= List.length idx)%nat); [|lia]. apply NoDup_incl_length; [exact ND|]. intros k Ik. destruct (C' k Ik) as [p [N B]]. apply (C k p N).
    apply andb_prop in B. apply in_cell_inside; [unfold real_box, cell0; eauto 10|apply B]. }
  assert (FF : filter finite_cell (map (cell0 ex ey) (grid ex ey)) = map (cell0 ex ey) (grid ex ey)).
  { generalize (grid ex ey). intro g. induction g as [|k g IH]; [reflexivity|]. cbn [map filter]. change (finite_cell (cell0 ex ey k)) with true. cbn iota. rewrite IH. reflexivity. }
  destruct (map (cell0 ex ey) (grid ex ey)) as [|c l] eqn:E; [destruct (grid ex ey); [destruct NE|discriminate]|]. rewrite <- E in *.
  assert (RF : refine fuel m (filter (in_mesh (map (cell0 ex ey) (grid ex ey))) data) [] (map (cell0 ex ey) (grid ex ey)) = Some (map (cell0 ex ey) (grid ex ey)))
    by (destruct fuel; cbn [refine]; rewrite F; reflexivity).
  rewrite RF. cbn [option_map]. rewrite FF. reflexivity.
Qed.

(* ------------------------------------------------------------------ C86: when the refinement ends *)
Fixpoint desc (k : nat) (c d : box XR) : Prop := match k with O => c = d | S k => exists e, In e (split_cell c) /\ desc k e d end.
Lemma refine_none m data fuel : forall done active, refine fuel m data done active = None -> exists c d, In c active /\ desc fuel c d /\ overfull m data d = true.
Proof.
  induction fuel as [|fuel IH]; intros done active E; cbn [refine] in E; destruct (filter (overfull m data) active) as [|b big] eqn:F; try discriminate.
  - assert (I : In b (filter (overfull m data) active)) by (rewrite F; left; reflexivity). apply filter_In in I. exists b, b. split; [apply I|]. split; [reflexivity|apply I].
  - rewrite <- F in E. apply IH in E. destruct E as [c [d [I [D O]]]]. apply in_flat_map in I. destruct I as [e [I J]]. apply filter_In in I. exists e, d. split; [apply I|]. split; [exists c; auto|exact O].
Qed.
Lemma split_width a b a' b' e : In e (split_cell (mk_box (Fin a) (Fin b) (Fin a') (Fin b'))) ->
  exists u v u' v', e = mk_box (Fin u) (Fin v) (Fin u') (Fin v') /\ v - u = (b - a) / 2 /\ v' - u' = (b' - a') / 2.
Proof.
  unfold split_cell. cbn [bx0 bx1 by0 by1]. rewrite !half_fin. cbn [In]. intros [<-|[<-|[<-|[<-|[]]]]]; do 4 eexists; (split; [reflexivity|split; lra]).
Qed.
Lemma desc_width k : forall a b a' b' d, desc k (mk_box (Fin a) (Fin b) (Fin a') (Fin b')) d ->
  exists u v u' v', d = mk_box (Fin u) (Fin v) (Fin u') (Fin v') /\ v - u = (b - a) / 2 ^ k /\ v' - u' = (b' - a') / 2 ^ k.
Proof.
  induction k as [|k IH]; intros a b a' b' d H; cbn [desc] in H.
  - subst d. exists a, b, a', b'. cbn [pow]. split; [reflexivity|split; field].
  - destruct H as [e [I D]]. destruct (split_width _ _ _ _ _ I) as [u [v [u' [v' [-> [W W']]]]]]. destruct (IH _ _ _ _ _ D) as [s [t [s' [t' [-> [V V']]]]]].
    exists s, t, s', t'. split; [reflexivity|]. rewrite V, V', W, W'. cbn [pow]. assert (2 ^ k <> 0) by (apply pow_nonzero; lra). split; field; assumption.
Qed.
Lemma lower_bound (L : list R) : exists d, 0 < d /\ forall r, In r L -> 0 < r -> d <= r.
Proof.
  induction L as [|r L [d [P H]]]; [exists 1; split; [lra|intros r []]|]. destruct (Rlt_dec 0 r) as [Q|Q].
  - exists (Rmin d r). split; [apply Rmin_glb_lt; assumption|]. intros s [<-|I] Ps; [apply Rmin_r|]. eapply Rle_trans; [apply Rmin_l|apply H; assumption].
  - exists d. split; [exact P|]. intros s [<-|I] Ps; [lra|apply H; assumption].
Qed.
Lemma upper_bound (L : list R) : exists d, 0 < d /\ forall r, In r L -> r <= d.
Proof.
  induction L as [|r L [d [P H]]]; [exists 1; split; [lra|intros r []]|]. exists (Rmax d r). split; [eapply Rlt_le_trans; [exact P|apply Rmax_l]|].
  intros s [<-|I]; [apply Rmax_r|]. eapply Rle_trans; [apply H, I|apply Rmax_l].
Qed.
Lemma pow2_big w d : 0 < d -> 0 < w -> exists k, w / 2 ^ k < d.
Proof.
  intros Pd Pw. destruct (pow_lt_1_zero (1 / 2) ltac:(rewrite Rabs_right; lra) (d / w) ltac:(apply Rdiv_lt_0_compat; assumption)) as [N H].
  exists N. specialize (H N (le_n N)). rewrite Rabs_right in H by (apply Rle_ge, pow_le; lra).
  replace ((1 / 2) ^ N) with (/ 2 ^ N) in H by (rewrite <- pow_inv; f_equal; lra). apply (Rmult_lt_compat_l w) in H; [|exact Pw].
  replace (w * (d / w)) with d in H by (field; lra). exact H.
Qed.
Definition rx (p : XR * XR) : R := match fst p with Fin x => x | _ => 0 end.
Definition ry (p : XR * XR) : R := match snd p with Fin x => x | _ => 0 end.
(** two distinct data in an overfull cell *)
Lemma two_in_cell m data c : real_box c -> overfull m data c = true -> (forall x y, in_cell c (Fin x, Fin y) = true -> (copies x y data <= m)%nat) ->
  exists x y x' y', In (Fin x, Fin y) data /\ In (Fin x', Fin y') data /\ in_cell c (Fin x, Fin y) = true /\ in_cell c (Fin x', Fin y') = true /\ (x <> x' \/ y <> y').
Proof.
  intros RC OV H. unfold overfull in OV. apply Nat.ltb_lt in OV. change (cell_count data c) with (tally (in_cell c) data) in OV.
  assert (P : (0 < tally (in_cell c) data)%nat) by lia. apply tally_pos in P. destruct P as [p [Ip Bp]]. destruct (in_cell_real c p RC Bp) as [x [y ->]].
  specialize (H x y Bp). unfold copies in H.
  destruct (existsb (fun q => in_cell c q && negb (same x y q)) data) eqn:X.
  - apply existsb_exists in X. destruct X as [q [Iq B]]. apply andb_prop in B. destruct B as [B N]. destruct (in_cell_real c q RC B) as [x' [y' ->]].
    exists x, y, x', y'. repeat split; try assumption. cbn [same] in N. apply negb_true_iff, andb_false_iff in N. destruct N as [N|N]; apply Reqb_false in N; [left|right]; congruence.
  - exfalso. assert (L : (tally (in_cell c) data <= tally (same x y) data)%nat); [|lia]. apply tally_sub. intros q Iq B.
    destruct (same x y q) eqn:S; [reflexivity|]. assert (F : existsb (fun q => in_cell c q && negb (same x y q)) data = true) by (apply existsb_exists; exists q; rewrite B, S; auto). congruence.
Qed.
Lemma desc_in_cell k : forall c d p, real_box c -> desc k c d -> in_cell d p = true -> in_cell c p = true.
Proof.
  induction k as [|k IH]; intros c d p RC D B; cbn [desc] in D; [subst; exact B|]. destruct D as [e [I D]].
  assert (RE : real_box e) by (pose proof (split_real c RC) as F; rewrite Forall_forall in F; apply F, I).
  specialize (IH e d p RE D B). destruct (in_cell c p) eqn:Q; [reflexivity|]. pose proof (split_tally c p RC) as T. rewrite Q in T.
  assert (P : (0 < tally (fun q => in_cell q p) (split_cell c))%nat) by (apply tally_pos; eauto). lia.
Qed.
Lemma refine_ends m data active : Forall real_box active -> (forall c x y, In c active -> in_cell c (Fin x, Fin y) = true -> (copies x y data <= m)%nat) ->
  exists fuel mesh, refine fuel m data [] active = Some mesh.
Proof.
  intros RA H.
  destruct (lower_bound (flat_map (fun p => flat_map (fun q => [Rabs (rx p - rx q); Rabs (ry p - ry q)]) data) data)) as [dl [Pd Hd]].
  destruct (upper_bound (flat_map (fun c : box XR => match c with mk_box (Fin a) (Fin b) (Fin a') (Fin b') => [b - a; b' - a'] | _ => [] end) active)) as [w [Pw Hw]].
  destruct (pow2_big w dl Pd Pw) as [k Hk]. exists k. destruct (refine k m data [] active) as [mesh|] eqn:E; [eauto|]. exfalso.
  apply refine_none in E. destruct E as [c [d [Ic [D OV]]]]. rewrite Forall_forall in RA. pose proof (RA c Ic) as RC. destruct RC as [a [b [a' [b' Ec]]]]. subst c.
  destruct (desc_width _ _ _ _ _ _ D) as [u [v [u' [v' [-> [W W']]]]]].
  assert (K : forall r, r <= w -> r / 2 ^ k < dl).
  { intros r L. eapply Rle_lt_trans; [|exact Hk]. apply Rmult_le_compat_r; [|exact L]. left. apply Rinv_0_lt_compat, pow_lt. lra. }
  assert (Wx : v - u < dl) by (rewrite W; apply K, Hw; apply in_flat_map; eexists; split; [exact Ic|left; reflexivity]).
  assert (Wy : v' - u' < dl) by (rewrite W'; apply K, Hw; apply in_flat_map; eexists; split; [exact Ic|right; left; reflexivity]).
  assert (RD : real_box (mk_box (Fin u) (Fin v) (Fin u') (Fin v'))) by (unfold real_box; eauto 10).
  destruct (two_in_cell m data _ RD OV) as [x [y [x' [y' [I1 [I2 [B1 [B2 N]]]]]]]].
  { intros x y B. apply (H _ x y Ic). eapply desc_in_cell; [|exact D|exact B]. unfold real_box; eauto 10. }
  rewrite in_cell_fin, !andb_true_iff, !Rleb_true, !Rltb_true in B1, B2.
  assert (M : forall z, In z [Rabs (x - x'); Rabs (y - y')] -> 0 < z -> dl <= z).
  { intros z I. apply Hd. apply in_flat_map. exists (Fin x, Fin y). split; [exact I1|]. apply in_flat_map. exists (Fin x', Fin y'). split; [exact I2|exact I]. }
  destruct N as [N|N].
  - assert (Q : dl <= Rabs (x - x')) by (apply M; [left; reflexivity|apply Rabs_pos_lt; lra]). unfold Rabs in Q. destruct (Rcase_abs (x - x')); lra.
  - assert (Q : dl <= Rabs (y - y')) by (apply M; [right; left; reflexivity|apply Rabs_pos_lt; lra]). unfold Rabs in Q. destruct (Rcase_abs (y - y')); lra.
Qed.
Lemma refine_stuck m data x y : (m < copies x y data)%nat -> forall fuel done active, Forall real_box active -> (0 < tally (fun c => in_cell c (Fin x, Fin y)) active)%nat ->
  refine fuel m data done active = None.
Proof.
  intro C. assert (OV : forall c, real_box c -> in_cell c (Fin x, Fin y) = true -> overfull m data c = true).
  { intros c RC B. unfold overfull. apply Nat.ltb_lt. eapply Nat.lt_le_trans; [exact C|]. unfold copies. change (cell_count data c) with (tally (in_cell c) data). apply tally_sub.
    intros [u v] _ S. destruct u as [a| | |]; try discriminate. destruct v as [b| | |]; try discriminate. cbn [same] in S. apply andb_prop in S. destruct S as [S1 S2].
    apply Reqb_true in S1. apply Reqb_true in S2. subst. exact B. }
  induction fuel as [|fuel IH]; intros done active RA P; cbn [refine];
    pose proof P as P'; apply tally_pos in P'; destruct P' as [c [I B]]; pose proof RA as RA'; rewrite Forall_forall in RA'; pose proof (OV c (RA' c I) B) as O;
    (assert (J : In c (filter (overfull m data) active)) by (apply filter_In; auto)); destruct (filter (overfull m data) active) as [|e big] eqn:F; try destruct J as []; [reflexivity|reflexivity| |]; rewrite <- F; apply IH;
    try (apply real_flat, real_filter, RA); rewrite flat_split_tally by (apply real_filter, RA); apply tally_pos; exists c; (split; [apply filter_In; auto|exact B]).
Qed.
(** C86: generate_mesh returns exactly when no point of the half-open rectangle occurs more than [m] times among the data. *)
Theorem C86_terminates_iff : forall m (ex ey : list R) data, ordered ex -> ordered ey -> (0 < nbin ex)%nat -> (0 < nbin ey)%nat ->
  ((exists fuel mesh, generate_mesh fuel m (map Fin ex) (map Fin ey) data = Ok (Some mesh))
   <-> forall x y, region ex ey (Fin x, Fin y) -> (copies x y data <= m)%nat).
Proof.
  intros m ex ey data Ox Oy Nx Ny.
  assert (NE : In (cell0 ex ey (0%nat, 0%nat)) (initialize_bins (map Fin ex) (map Fin ey))) by (rewrite initial_cells; apply in_map; unfold grid; apply in_prod; apply in_seq; lia).
  set (cells := initialize_bins (map Fin ex) (map Fin ey)) in *.
  assert (GM : forall fuel, generate_mesh fuel m (map Fin ex) (map Fin ey) data = Ok (option_map (filter finite_cell) (refine fuel m (filter (in_mesh cells) data) [] cells))).
  { intro fuel. unfold generate_mesh. fold cells. destruct cells; [destruct NE|reflexivity]. }
  pose proof (initial_real ex ey) as RI. fold cells in RI.
  assert (CP : forall x y, region ex ey (Fin x, Fin y) -> copies x y (filter (in_mesh cells) data) = copies x y data).
  { intros x y Rg. unfold copies. rewrite tally_filter. apply tally_ext. intros [u v] _. destruct (same x y (u, v)) eqn:S; [|apply andb_false_r].
    destruct u as [a| | |]; try discriminate. destruct v as [b| | |]; try discriminate. cbn [same] in S. apply andb_prop in S. destruct S as [S1 S2]. apply Reqb_true in S1. apply Reqb_true in S2. subst a b.
    rewrite andb_true_r. assert (Q : (0 < tally (fun c => in_cell c (Fin x, Fin y)) cells)%nat) by (unfold cells; rewrite (proj1 (initial_tally ex ey _ Ox Oy) Rg); lia).
    apply tally_pos in Q. destruct Q as [c [I B]]. eapply in_mesh_of_cell; eassumption. }
  split.
  - intros [fuel [mesh E]] x y Rg. destruct (le_lt_dec (copies x y data) m) as [L|L]; [exact L|]. exfalso. rewrite GM in E.
    rewrite (refine_stuck m _ x y) in E; [discriminate|rewrite CP; assumption|exact RI|]. unfold cells. rewrite (proj1 (initial_tally ex ey _ Ox Oy) Rg). lia.
  - intro H. destruct (refine_ends m (filter (in_mesh cells) data) cells RI) as [fuel [mesh E]].
    + intros c x y I B. assert (Rg : region ex ey (Fin x, Fin y)).
      { unfold cells in I. rewrite initial_cells in I. apply in_map_iff in I. destruct I as [[i j] [<- I]]. unfold grid in I. apply in_prod_iff in I. destruct I as [Ii Ij]. apply in_seq in Ii, Ij.
        unfold cell0 in B. cbn [fst snd] in B. rewrite in_cell_fin, !andb_true_iff, !Rleb_true, !Rltb_true in B. exists x, y. split; [reflexivity|]. unfold nbin in *.
        assert (nth 0 ex 0 <= nth i ex 0) by (apply Ox; lia). assert (nth (S i) ex 0 <= nth (List.length ex - 1) ex 0) by (apply Ox; lia).
        assert (nth 0 ey 0 <= nth j ey 0) by (apply Oy; lia). assert (nth (S j) ey 0 <= nth (List.length ey - 1) ey 0) by (apply Oy; lia). lra. }
      rewrite CP by exact Rg. apply H, Rg.
    + exists fuel, (filter finite_cell mesh). rewrite GM, E. reflexivity.
Qed.
(** The number of passes allowed does not matter once the mesh is finished. *)
Lemma refine_more m data fuel : forall fuel' done active out, (fuel <= fuel')%nat -> refine fuel m data done active = Some out -> refine fuel' m data done active = Some out.
Proof.
  induction fuel as [|fuel IH]; intros fuel' done active out L E; cbn [refine] in E; destruct (filter (overfull m data) active) as [|b big] eqn:F; try discriminate.
  - destruct fuel'; cbn [refine]; rewrite F; exact E.
  - destruct fuel'; cbn [refine]; rewrite F; exact E.
  - destruct fuel' as [|fuel']; [lia|]. cbn [refine]. rewrite F. apply IH; [lia|exact E].
Qed.
Theorem C86_result_unique : forall fuel fuel' m (ex ey : list R) data mesh mesh',
  generate_mesh fuel m (map Fin ex) (map Fin ey) data = Ok (Some mesh) -> generate_mesh fuel' m (map Fin ex) (map Fin ey) data = Ok (Some mesh') -> mesh = mesh'.
Proof.
  intros fuel fuel' m ex ey data mesh mesh' E E'. unfold generate_mesh in *. destruct (initialize_bins (map Fin ex) (map Fin ey)) as [|c l]; [discriminate|].
  destruct (refine fuel _ _ _ _) as [o|] eqn:F; [|discriminate]. destruct (refine fuel' _ _ _ _) as [o'|] eqn:F'; [|discriminate].
  assert (o = o').
  { apply (refine_more _ _ _ (fuel + fuel')%nat) in F; [|lia]. apply (refine_more _ _ _ (fuel + fuel')%nat) in F'; [|lia]. congruence. }
  subst o'. congruence.
Qed.
(** C86 as stated is false: for every threshold there are data on which generate_mesh never returns -- m+1 equal points. *)
Theorem C86_terminates_refuted : forall m, exists (ex ey : list R) data, strictly ex /\ strictly ey /\ (0 < nbin ex)%nat /\ (0 < nbin ey)%nat /\ List.length data = S m /\
  (forall p, In p data -> region ex ey p) /\ forall fuel, generate_mesh fuel m (map Fin ex) (map Fin ey) data = Ok None.
Proof.
  intro m. exists [0; 1; 2], [0; 1; 2], (repeat (Fin 1, Fin 1) (S m)). split; [apply strictly_012|]. split; [apply strictly_012|]. split; [cbv; lia|]. split; [cbv; lia|].
  split; [apply repeat_length|].
  assert (Rg : region [0; 1; 2] [0; 1; 2] (Fin 1, Fin 1)) by (exists 1, 1; unfold nbin; cbn; split; [reflexivity|lra]).
  split; [intros p I; apply repeat_spec in I; subst; exact Rg|]. intro fuel.
  assert (O : ordered [0; 1; 2]).
  { intros i j L. destruct (Nat.eq_dec i j) as [->|N]; [lra|]. left. apply strictly_012. lia. }
  destruct (generate_mesh fuel m (map Fin [0; 1; 2]) (map Fin [0; 1; 2]) (repeat (Fin 1, Fin 1) (S m))) as [[mesh|]|e] eqn:E; [|reflexivity|discriminate].
  exfalso. assert (C : (copies 1 1 (repeat (Fin 1, Fin 1) (S m)) <= m)%nat) by (apply (proj1 (C86_terminates_iff m [0;1;2] [0;1;2] _ O O ltac:(cbv; lia) ltac:(cbv; lia))); [eauto|exact Rg]).
  assert (K : forall n, copies 1 1 (repeat (Fin 1, Fin 1) n) = n).
  { induction n as [|n IH]; [reflexivity|]. cbn [repeat]. unfold copies in *. rewrite tally_cons, IH. cbn [same]. rewrite (proj2 (Reqb_true 1 1)) by reflexivity. reflexivity. }
  rewrite K in C. lia.
Qed.

(* ------------------------------------------------------------------ C87: the default edges *)
Definition qat (s : list R) (n i : nat) : R :=
  let h := ((List.length s - 1) * i)%nat in
  let lo := nth (Nat.div h n) s 0 in
  lo + (nth (S (Nat.div h n)) s lo - lo) * (INR (Nat.modulo h n) / INR n).
Lemma nth_map_fin s k d : (k < List.length s)%nat -> nth k (map Fin s) d = Fin (nth k s 0).
Proof. intro L. rewrite (nth_indep _ d (Fin 0)) by (rewrite map_length; exact L). apply map_nth. Qed.
Lemma div_small_index L i n : (0 < n)%nat -> (i <= n)%nat -> (0 < L)%nat -> (Nat.div ((L - 1) * i) n < L)%nat.
Proof.
  intros Pn Li PL. apply Nat.div_lt_upper_bound; [lia|]. destruct L as [|L]; [lia|]. replace (S L - 1)%nat with L by lia. nia.
Qed.
Lemma quantile_fin s n i : (0 < List.length s)%nat -> (0 < n)%nat -> (i <= n)%nat -> quantile_at (map Fin s) i n = Fin (qat s n i).
Proof.
  intros PL Pn Li. unfold quantile_at, qat. rewrite map_length. cbv zeta. set (h := ((List.length s - 1) * i)%nat).
  assert (K : (Nat.div h n < List.length s)%nat) by (apply div_small_index; assumption). rewrite nth_map_fin by exact K.
  assert (HI : nth (S (Nat.div h n)) (map Fin s) (Fin (nth (Nat.div h n) s 0)) = Fin (nth (S (Nat.div h n)) s (nth (Nat.div h n) s 0))) by apply (map_nth Fin).
  unfold ofnat. rewrite HI, !fin_ofZ, <- !INR_IZR_INZ, fin_div by (apply not_0_INR; lia). rewrite fin_sub, fin_mul, fin_add. reflexivity.
Qed.
Lemma SS_nth_le (s : list R) : StronglySorted (leP Rleb) s -> ordered s.
Proof.
  intros S i j L. revert s S L. induction i as [|i IH]; intros s S L.
  - destruct s as [|x s]; [cbn in L; lia|]. destruct j as [|j]; [lra|]. cbn [nth]. inversion S as [|? ? S' F]. rewrite Forall_forall in F. apply Rleb_true, F. apply nth_In. cbn in L. lia.
  - revert j IH S L. destruct s as [|x s]; intros j IH S L; [cbn in L; lia|]. destruct j as [|j]; [lia|]. cbn [nth]. inversion S. 
    assert (G : forall i j, (i <= j < List.length s)%nat -> nth i s 0 <= nth j s 0); [|apply G; cbn in L; lia].
    clear - H1. induction H1 as [|y s S IH F]; intros i j L; [cbn in L; lia|]. destruct i as [|i], j as [|j]; try lia; cbn [nth]; [lra| |apply IH; cbn in L; lia].
    rewrite Forall_forall in F. apply Rleb_true, F. apply nth_In. cbn in L. lia.
Qed.
Lemma qat_mono s n i j : ordered s -> (0 < List.length s)%nat -> (0 < n)%nat -> (i <= j <= n)%nat -> qat s n i <= qat s n j.
Proof.
  intros O PL Pn L. unfold qat. cbv zeta. set (hi_ := ((List.length s - 1) * i)%nat). set (hj := ((List.length s - 1) * j)%nat).
  assert (Hh : (hi_ <= hj)%nat) by (unfold hi_, hj; apply Nat.mul_le_mono_l; lia).
  assert (Ki : (Nat.div hi_ n < List.length s)%nat) by (apply div_small_index; lia). assert (Kj : (Nat.div hj n < List.length s)%nat) by (apply div_small_index; lia).
  assert (Fr : forall h, 0 <= INR (Nat.modulo h n) / INR n <= 1).
  { intro h. assert (Pn' : 0 < INR n) by (apply lt_0_INR; lia). assert (Nat.modulo h n < n)%nat by (apply Nat.mod_upper_bound; lia). split.
    - apply Rmult_le_pos; [apply pos_INR|left; apply Rinv_0_lt_compat, Pn'].
    - apply (Rmult_le_reg_r (INR n)); [exact Pn'|]. unfold Rdiv. rewrite Rmult_assoc, Rinv_l, Rmult_1_r, Rmult_1_l by lra. apply le_INR. lia. }
  assert (St : forall k, (k < List.length s)%nat -> nth k s 0 <= nth (S k) s (nth k s 0)).
  { intros k Lk. destruct (le_lt_dec (List.length s) (S k)) as [G|G]; [rewrite (nth_overflow s (nth k s 0)) by exact G; lra|]. rewrite (nth_indep s (nth k s 0) 0) by exact G. apply O. lia. }
  destruct (Nat.eq_dec (Nat.div hi_ n) (Nat.div hj n)) as [E|E].
  - rewrite E. apply Rplus_le_compat_l, Rmult_le_compat_l; [pose proof (St _ Kj); lra|]. apply Rmult_le_compat_r; [left; apply Rinv_0_lt_compat, lt_0_INR; lia|]. apply le_INR.
    pose proof (Nat.div_mod hi_ n ltac:(lia)). pose proof (Nat.div_mod hj n ltac:(lia)). rewrite E in *. lia.
  - assert (D : (Nat.div hi_ n < Nat.div hj n)%nat) by (pose proof (Nat.div_le_mono hi_ hj n ltac:(lia) Hh); lia).
    pose proof (St _ Ki) as S1. pose proof (St _ Kj) as S2. pose proof (Fr hi_) as F1. pose proof (Fr hj) as F2.
    assert (M : nth (S (Nat.div hi_ n)) s (nth (Nat.div hi_ n) s 0) <= nth (Nat.div hj n) s 0) by (rewrite (nth_indep s _ 0) by lia; apply O; lia).
    set (a := nth (Nat.div hi_ n) s 0) in *. set (b := nth (S (Nat.div hi_ n)) s a) in *. set (c := nth (Nat.div hj n) s 0) in *. set (d := nth (S (Nat.div hj n)) s c) in *.
    set (f := INR (hi_ mod n) / INR n) in *. set (g := INR (hj mod n) / INR n) in *.
    assert ((b - a) * f <= (b - a) * 1) by (apply Rmult_le_compat_l; lra). assert (0 <= (d - c) * g) by (apply Rmult_le_pos; lra). lra.
Qed.
Lemma qat_first s n : qat s n 0 = nth 0 s 0.
Proof. unfold qat. rewrite Nat.mul_0_r. destruct n as [|n]; [cbn; unfold Rdiv; ring|]. rewrite Nat.div_0_l, Nat.mod_0_l by lia. cbn [INR]. unfold Rdiv. ring. Qed.
Lemma qat_last s n : (0 < n)%nat -> (0 < List.length s)%nat -> qat s n n = nth (List.length s - 1) s 0.
Proof. intros Pn PL. unfold qat. rewrite Nat.div_mul, Nat.mod_mul by lia. cbn [INR]. unfold Rdiv. ring. Qed.
Lemma removelast_map_seq {X} (f : nat -> X) n : removelast (map f (seq 0 (S n))) = map f (seq 0 n).
Proof. rewrite seq_S, map_app. cbn [map]. apply removelast_last. Qed.
Lemma largest_in (l : list R) d : l <> [] -> exists s, largest (map Fin l) d = Fin s /\ In s l /\ forall y, In y l -> y <= s.
Proof.
  destruct l as [|x r]; [congruence|]. intros _. unfold largest. cbn [map].
  assert (G : forall r x, exists s, fold_left (fun m y : XR => if altb m y then y else m) (map Fin r) (Fin x) = Fin s /\ (s = x \/ In s r) /\ x <= s /\ forall y, In y r -> y <= s).
  { clear. induction r as [|y r IH]; intro x; cbn [map fold_left]; [exists x; split; [reflexivity|split; [auto|split; [lra|intros y []]]]|].
    rewrite fin_ltb. destruct (Rltb x y) eqn:B; [apply (proj1 (Rltb_true _ _)) in B|apply (proj1 (Rltb_false _ _)) in B].
    - destruct (IH y) as [s [E [I [L F]]]]. exists s. split; [exact E|]. split; [destruct I as [->|I]; right; [left; reflexivity|right; exact I]|]. split; [lra|]. intros z [<-|J]; [exact L|apply F, J].
    - destruct (IH x) as [s [E [I [L F]]]]. exists s. split; [exact E|]. split; [destruct I as [->|I]; [left; reflexivity|right; right; exact I]|]. split; [lra|]. intros z [<-|J]; [lra|apply F, J]. }
  destruct (G r x) as [s [E [I [L F]]]]. exists s. split; [exact E|]. split; [destruct I as [->|I]; [left; reflexivity|right; exact I]|]. intros y [<-|J]; auto.
Qed.
(** what widening does to the last edge *)
Definition widened (m : R) : R := Rmax (1 / 100) (101 / 100 * m).
Lemma widened_gt m : m < widened m.
Proof. unfold widened. destruct (Rle_dec m 0); [eapply Rlt_le_trans; [|apply Rmax_l]|eapply Rlt_le_trans; [|apply Rmax_r]]; lra. Qed.
Lemma widen_fin (l : list R) m : In m l -> (forall y, In y l -> y <= m) -> widen (map Fin l) = map Fin (removelast l ++ [widened m]).
Proof.
  intros I H. unfold widen, replace_last. destruct (largest_in l anan) as [s [E [Is Hs]]]; [destruct l; [destruct I|discriminate]|].
  assert (s = m) by (apply Rle_antisym; [apply H, Is|apply Hs, I]). subst s. rewrite E, !fin_ofQ, fin_mul, fin_ltb.
  assert (RM : forall l : list R, removelast (map Fin l) = map Fin (removelast l)) by (induction l0 as [|a l0 IH]; [reflexivity|]; destruct l0; [reflexivity|]; change (removelast (a :: r :: l0)) with (a :: removelast (r :: l0)); cbn [map]; rewrite <- IH; reflexivity).
  rewrite RM, map_app. cbn [map]. f_equal. f_equal. unfold widened, Rmax.
  destruct (Rltb (1 / 100) (101 / 100 * m)) eqn:B; [apply (proj1 (Rltb_true _ _)) in B|apply (proj1 (Rltb_false _ _)) in B]; destruct (Rle_dec (1 / 100) (101 / 100 * m)); f_equal; lra.
Qed.
Lemma finite_values (data : list XR) : exists l, finite data = map Fin l /\ forall x, In x l <-> In (Fin x) data.
Proof.
  destruct (finite_list (finite data)) as [l E].
  { intros v I. apply filter_In in I. destruct I as [_ B]. destruct v; try discriminate. eauto. }
  exists l. split; [exact E|]. intro x. split; intro I.
  - assert (J : In (Fin x) (map Fin l)) by (apply in_map, I). rewrite <- E in J. apply filter_In in J. apply J.
  - assert (J : In (Fin x) (finite data)) by (apply filter_In; split; [exact I|reflexivity]). rewrite E in J. apply in_map_iff in J. destruct J as [y [Ey J]]. injection Ey as <-. exact J.
Qed.
(** C87: with n >= 1 bins per axis the default edges are n+1 ordered numbers; the first is the smallest finite datum and every finite datum
    lies below the last. *)
Theorem C87_default_edges_cover : forall n (data : list XR), (0 < n)%nat -> (exists x, In (Fin x) data) ->
  exists e, default_edges n data = Ok (map Fin e) /\ ordered e /\ nbin e = n /\ In (Fin (nth 0 e 0)) data /\ forall x, In (Fin x) data -> nth 0 e 0 <= x < nth n e 0.
Proof.
  intros n data Pn [x0 I0]. destruct (finite_values data) as [l [EF HF]]. unfold default_edges. rewrite EF, sort_fin. cbv zeta.
  set (s := sort_by Rleb l). assert (SI : forall x, In x s <-> In (Fin x) data) by (intro x; unfold s; rewrite sort_by_In; apply HF).
  assert (O : ordered s) by (apply SS_nth_le, sort_by_sorted; [apply Rleb_total|apply Rleb_trans]).
  assert (PL : (0 < List.length s)%nat) by (apply SI in I0; destruct s; [destruct I0|cbn; lia]).
  set (top := nth (List.length s - 1) s 0).
  assert (Bd : forall x, In (Fin x) data -> nth 0 s 0 <= x <= top).
  { intros x I. apply SI in I. destruct (In_nth s x 0 I) as [k [Lk <-]]. split; apply O; lia. }
  set (q := map (qat s n) (seq 0 (S n))).
  exists (removelast q ++ [widened top]).
  assert (Lr : removelast q = map (qat s n) (seq 0 n)) by apply removelast_map_seq.
  assert (Ln : List.length (removelast q ++ [widened top]) = S n) by (rewrite Lr, app_length, map_length, seq_length; cbn; lia).
  assert (Nt : forall i, (i < n)%nat -> nth i (removelast q ++ [widened top]) 0 = qat s n i).
  { intros i Li. rewrite Lr, app_nth1 by (rewrite map_length, seq_length; exact Li). rewrite (nth_indep _ 0 (qat s n 0)) by (rewrite map_length, seq_length; exact Li). rewrite map_nth, seq_nth by exact Li. reflexivity. }
  assert (Nn : nth n (removelast q ++ [widened top]) 0 = widened top) by (rewrite Lr, app_nth2 by (rewrite map_length, seq_length; lia); rewrite map_length, seq_length, Nat.sub_diag; reflexivity).
  assert (N0 : nth 0 (removelast q ++ [widened top]) 0 = nth 0 s 0) by (rewrite Nt by exact Pn; apply qat_first).
  assert (QT : forall i, (i <= n)%nat -> qat s n i <= top) by (intros i Li; unfold top; rewrite <- (qat_last s n Pn PL); apply qat_mono; auto; lia).
  split; [|split; [|split; [|split]]].
  - destruct (map Fin s) as [|y r] eqn:Em; [destruct s; [cbn in PL; lia|discriminate]|]. f_equal.
    replace (match n with O => [y] | S _ => map (fun i => quantile_at (y :: r) i n) (seq 0 (S n)) end) with (map Fin q).
    + apply widen_fin; [|intros y' I; unfold q in I; apply in_map_iff in I; destruct I as [i [<- I]]; apply in_seq in I; apply QT; lia].
      unfold top, q. rewrite <- (qat_last s n Pn PL). apply in_map, in_seq. lia.
    + unfold q. destruct n as [|n']; [lia|]. rewrite map_map. apply map_ext_in. intros i I. apply in_seq in I. symmetry. rewrite <- Em. apply quantile_fin; lia.
  - intros i j L. rewrite Ln in L. destruct (Nat.eq_dec j n) as [->|Nj].
    + rewrite Nn. destruct (Nat.eq_dec i n) as [->|Ni]; [rewrite Nn; lra|]. rewrite Nt by lia. eapply Rle_trans; [apply QT; lia|]. left. apply widened_gt.
    + rewrite !Nt by lia. apply qat_mono; auto; lia.
  - unfold nbin. rewrite Ln. lia.
  - rewrite N0. apply SI, nth_In, PL.
  - intros x I. rewrite N0, Nn. pose proof (Bd x I). pose proof (widened_gt top). lra.
Qed.

(* ------------------------------------------------------------------ the whole pipeline *)
(** C127: build_cat succeeds exactly when every datum lies in the rectangle. *)
Theorem C127_every_datum_must_be_inside : forall fuel m (ex ey : list R) data mesh ws, ordered ex -> ordered ey ->
  generate_mesh fuel m (map Fin ex) (map Fin ey) data = Ok (Some mesh) -> Permutation ws (writes mesh data) ->
  ((forall p, In p data -> region ex ey p) -> build_cat (run_writes (List.length data) ws) = Ok (run_writes (List.length data) ws))
  /\ ((exists p, In p data /\ ~ region ex ey p) -> build_cat (run_writes (List.length data) ws) = Err TypeError).
Proof.
  intros fuel m ex ey data mesh ws Ox Oy E P. pose proof (C84_bin_numbers _ _ _ _ _ _ _ Ox Oy E P) as F. unfold build_cat. revert F. generalize (run_writes (List.length data) ws). clear E P.
  intros zb F. split; intro H.
  - replace (existsb (Z.eqb (-9999)) zb) with false; [reflexivity|]. symmetry. apply not_true_is_false. intro X. apply existsb_exists in X. destruct X as [z [I B]]. apply Z.eqb_eq in B. subst z.
    induction F as [|p z data zb [A B] F IH]; [destruct I|]. destruct I as [->|I]; [|apply IH; [intros; apply H; right; assumption|exact I]].
    destruct (A (H p (or_introl eq_refl))) as [i [c [Z _]]]. lia.
  - replace (existsb (Z.eqb (-9999)) zb) with true; [reflexivity|]. symmetry. apply existsb_exists. exists (-9999)%Z. split; [|reflexivity]. destruct H as [p [I N]].
    induction F as [|q z data zb [A B] F IH]; [destruct I|]. destruct I as [->|I]; [left; apply B, N|right; apply IH, I].
Qed.
(** "data outside the mesh are left out of the aggregate" is false: one such datum and there is no aggregate at all. *)
Theorem C127_outside_data_ignored_refuted : exists (ex ey : list R) data mesh, ordered ex /\ ordered ey /\ generate_mesh 0 5 (map Fin ex) (map Fin ey) data = Ok (Some mesh) /\
  (exists p, In p data /\ region ex ey p) /\ (exists p, In p data /\ ~ region ex ey p) /\
  forall ws f clim keep z, Permutation ws (writes mesh data) -> spiral_agg f clim keep (List.length mesh) (run_writes (List.length data) ws) z = Err TypeError.
Proof.
  set (e := [0; 1; 2]). set (data := [(Fin 1, Fin 1); (Fin 1, MInf)] : list (XR * XR)).
  assert (O : ordered e) by (intros i j L; destruct (Nat.eq_dec i j) as [->|N]; [lra|]; left; apply strictly_012; unfold e in L; lia).
  assert (G : generate_mesh 0 5 (map Fin e) (map Fin e) data = Ok (Some (map (cell0 e e) (grid e e)))).
  { apply C85_no_needless_division; [cbv; lia|cbv; lia|]. intros i j _ _. exists [0%nat; 1%nat]. split; [cbn; lia|]. intros k p N _. destruct k as [|[|k]]; [left; reflexivity|right; left; reflexivity|].
    unfold data in N. cbn in N. destruct k; discriminate. }
  exists e, e, data, (map (cell0 e e) (grid e e)). split; [exact O|]. split; [exact O|]. split; [exact G|].
  split; [exists (Fin 1, Fin 1); split; [left; reflexivity|exists 1, 1; unfold nbin, e; cbn; split; [reflexivity|lra]]|].
  assert (NR : ~ region e e (Fin 1, MInf)) by (intros [? [? [Q _]]]; discriminate).
  split; [exists (Fin 1, MInf); split; [right; left; reflexivity|exact NR]|].
  intros ws f clim keep z P. unfold spiral_agg. rewrite (proj2 (C127_every_datum_must_be_inside _ _ _ _ _ _ _ O O G P)); [reflexivity|].
  exists (Fin 1, MInf). split; [right; left; reflexivity|exact NR].
Qed.
(** the z-values of the rows that lie in cell c *)
Definition holds (c : box XR) (p : XR * XR) : bool :=
  match c, p with mk_box (Fin a) (Fin b) (Fin a') (Fin b'), (Fin x, Fin y) => Rleb a x && Rltb x b && Rleb a' y && Rltb y b' | _, _ => false end.
Definition held (c : box XR) (data : list (XR * XR)) (z : list XR) : list XR := map snd (filter (fun r => holds c (fst r)) (combine data z)).
Lemma holds_in_cell c p : real_box c -> holds c p = in_cell c p.
Proof.
  intro RC. pose proof RC as [a [b [a' [b' ->]]]]. destruct p as [[x| | |] [y| | |]]; try (rewrite in_cell_fin; reflexivity);
    symmetry; apply not_true_is_false; intro H; destruct (in_cell_real _ _ RC H) as [? [? E]]; discriminate.
Qed.
Lemma zbin_members fuel m (ex ey : list R) data mesh ws z i c : ordered ex -> ordered ey ->
  generate_mesh fuel m (map Fin ex) (map Fin ey) data = Ok (Some mesh) -> Permutation ws (writes mesh data) ->
  (forall p, In p data -> region ex ey p) -> nth_error mesh i = Some c ->
  let rows := combine (map (fun b => Some (Z.to_nat b)) (run_writes (List.length data) ws)) z in
  members nat Nat.eqb rows i = held c data z /\ is_observed nat Nat.eqb rows i = match held c data z with [] => false | _ => true end.
Proof.
  intros Ox Oy E P AR Nc rows. pose proof (C84_bin_numbers _ _ _ _ _ _ _ Ox Oy E P) as F. pose proof (C84_cells_partition_region _ _ _ _ _ _ Ox Oy E) as PR.
  destruct (generate_inv _ _ _ _ _ _ E) as [cells [_ [_ [RM _]]]]. rewrite Forall_forall in RM. pose proof (RM c (nth_error_In _ _ Nc)) as RC.
  unfold rows, members, is_observed, held. revert F. generalize (run_writes (List.length data) ws). clear E P rows. intros zb F. revert z.
  induction F as [|p b data zb [A _] F IH]; intro z; [split; reflexivity|]. destruct z as [|v z]; [split; reflexivity|]. cbn [map combine filter existsb fst snd].
  assert (Q : Nat.eqb (Z.to_nat b) i = holds c p).
  { destruct (A (AR p (or_introl eq_refl))) as [j [d [-> [Nd Id]]]]. rewrite Nat2Z.id, (holds_in_cell c p RC). destruct (Nat.eqb j i) eqn:Q.
    - apply Nat.eqb_eq in Q. subst j. rewrite Nc in Nd. injection Nd as <-. symmetry. apply (proj2 (in_cell_inside c p RC)), Id.
    - symmetry. apply not_true_is_false. intro B. apply (proj1 (in_cell_inside c p RC)) in B. destruct (proj1 (PR p) (AR p (or_introl eq_refl))) as [k [_ U]].
      assert (k = i) by (apply U; eauto). assert (k = j) by (apply U; eauto). apply Nat.eqb_neq in Q. congruence. }
  destruct (IH (fun q I => AR q (or_intror I)) z) as [I1 I2]. rewrite Q. destruct (holds c p); cbn [map snd orb]; [split; [f_equal; exact I1|reflexivity]|split; [exact I1|exact I2]].
Qed.
(** C128: each cell shows the aggregate of the z-values lying in it, NaN if it holds none, is filtered out, or its count is outside the limits. *)
Theorem C128_cell_values : forall fuel m (ex ey : list R) data mesh ws z f clim keep, ordered ex -> ordered ey ->
  generate_mesh fuel m (map Fin ex) (map Fin ey) data = Ok (Some mesh) -> Permutation ws (writes mesh data) ->
  (forall p, In p data -> region ex ey p) -> List.length z = List.length data -> List.length keep = List.length mesh ->
  exists t, spiral_agg f clim keep (List.length mesh) (run_writes (List.length data) ws) z = Ok t /\ List.length t = List.length mesh /\
  forall i c, nth_error mesh i = Some c -> let zs := held c data z in
    (nth i keep false = true -> zs <> [] -> inlim clim (Fin (INR (tally notnan zs))) ->
       nth_error t i = Some (match f with FCount => Fin (INR (tally notnan zs)) | FOther g => g zs | FDefault => the_fcn FDefault z zs end))
    /\ (nth i keep false = false \/ zs = [] \/ ~ inlim clim (Fin (INR (tally notnan zs))) -> nth_error t i = Some NaN).
Proof.
  intros fuel m ex ey data mesh ws z f clim keep Ox Oy E P AR Lz Lk. unfold spiral_agg. rewrite (proj1 (C127_every_datum_must_be_inside _ _ _ _ _ _ _ Ox Oy E P) AR). cbn [bind].
  assert (Lr : List.length (run_writes (List.length data) ws) = List.length data) by (unfold run_writes; rewrite map_length, seq_length; reflexivity).
  rewrite Lr, Lz, Lk, !Nat.eqb_refl. cbn [negb]. cbv iota. cbv zeta. eexists. split; [reflexivity|].
  split; [rewrite map_length, combine_length, seq_length, Lk; apply Nat.min_id|].
  intros i c Nc. cbv zeta.
  assert (Li : (i < List.length mesh)%nat) by (apply nth_error_Some; congruence).
  assert (NK : nth_error (combine (seq 0 (List.length mesh)) keep) i = Some (i, nth i keep false)).
  { assert (D : nth i (combine (seq 0 (List.length mesh)) keep) (0%nat, false) = (i, nth i keep false)) by (rewrite combine_nth by (rewrite seq_length; auto); rewrite seq_nth by exact Li; reflexivity).
    rewrite <- D. apply nth_error_nth'. rewrite combine_length, seq_length, Lk, Nat.min_id. exact Li. }
  destruct (zbin_members fuel m ex ey data mesh ws z i c Ox Oy E P AR Nc) as [M1 M2].
  assert (SN : map snd (combine (map (fun b => Some (Z.to_nat b)) (run_writes (List.length data) ws)) z) = z).
  { assert (LL : List.length (map (fun b => Some (Z.to_nat b)) (run_writes (List.length data) ws)) = List.length z) by (rewrite map_length, Lr; auto). revert LL. generalize (map (fun b => Some (Z.to_nat b)) (run_writes (List.length data) ws)).
    clear. intros l. revert z. induction l as [|a l IH]; intros [|v z] L; try discriminate; [reflexivity|]. cbn [combine map snd]. rewrite IH by (cbn in L; lia). reflexivity. }
  rewrite (map_nth_error _ _ _ NK). cbn [fst snd]. rewrite runner_gtab, (at_gtab_in nat Nat.eqb nat_eqb_spec) by (apply in_seq; lia). rewrite M1, M2, SN.
  change (count (held c data z)) with (ofnat (T := XR) (tally notnan (held c data z))). unfold ofnat. rewrite fin_ofZ, <- INR_IZR_INZ.
  set (zs := held c data z). split.
  - intros K NE W. rewrite K. destruct zs as [|v r] eqn:Z; [congruence|]. rewrite <- Z. apply within_iff in W. rewrite <- Z in W. rewrite W. destruct f; try reflexivity.
    cbn [the_fcn]. unfold count, ofnat. rewrite fin_ofZ, <- INR_IZR_INZ. reflexivity.
  - intros [K|[Z|W]]; [rewrite K; reflexivity|rewrite Z; destruct (nth i keep false); reflexivity|].
    destruct (nth i keep false); [|reflexivity]. destruct zs; [reflexivity|]. destruct (within clim _) eqn:X; [|reflexivity]. exfalso. apply W, within_iff, X.
Qed.
(** C128: nothing is lost: without limits and filters the counts of all cells add up to the number of rows. *)
Lemma combine_left {X Y} (f : X -> bool) (a : list X) : forall b : list Y, List.length b = List.length a -> tally (fun r => f (fst r)) (combine a b) = tally f a.
Proof. induction a as [|x a IH]; intros [|y b] L; try discriminate; [reflexivity|]. cbn [combine]. rewrite !tally_cons, IH by (cbn in L; lia). reflexivity. Qed.
Lemma double_count {X Y} (g : X -> Y -> bool) (data : list X) : forall mesh : list Y,
  list_sum (map (fun c => tally (fun p => g p c) data) mesh) = list_sum (map (fun p => tally (g p) mesh) data).
Proof.
  unfold list_sum. induction mesh as [|c mesh IH]; cbn [map fold_right].
  - induction data as [|p data IH']; [reflexivity|]. cbn [map fold_right]. exact IH'.
  - rewrite IH. clear IH. induction data as [|p data IH]; [reflexivity|]. cbn [map fold_right]. rewrite !tally_cons. lia.
Qed.
Theorem C128_counts_add_up : forall fuel m (ex ey : list R) data mesh z, ordered ex -> ordered ey ->
  generate_mesh fuel m (map Fin ex) (map Fin ey) data = Ok (Some mesh) -> (forall p, In p data -> region ex ey p) -> List.length z = List.length data ->
  list_sum (map (fun c => List.length (held c data z)) mesh) = List.length data.
Proof.
  intros fuel m ex ey data mesh z Ox Oy E AR Lz. destruct (generate_inv _ _ _ _ _ _ E) as [cells [-> [_ [RM [_ T]]]]]. rewrite Forall_forall in RM.
  transitivity (list_sum (map (fun c => tally (fun p => in_cell c p) data) mesh)).
  - f_equal. apply map_ext_in. intros c I. unfold held. rewrite map_length. rewrite <- (combine_left (fun p => in_cell c p) data z Lz). apply tally_ext. intros r _. apply holds_in_cell, RM, I.
  - rewrite (double_count (fun p c => in_cell c p)). clear Lz E. induction data as [|p data IH]; [reflexivity|]. cbn [map list_sum fold_right List.length].
    rewrite T, (proj1 (initial_tally ex ey p Ox Oy)) by (apply AR; left; reflexivity). unfold list_sum in IH. rewrite IH by (intros q I; apply AR; right; exact I). reflexivity.
Qed.
(** C87 with the rest: on default edges the mesh, when it exists, numbers every row whose two coordinates are finite. *)
Theorem C87_finite_rows_are_placed : forall n n' fuel m data mesh ws, (0 < n)%nat -> (0 < n')%nat ->
  (exists x, In (Fin x) (map fst data)) -> (exists y, In (Fin y) (map snd data)) ->
  forall ex ey, default_edges n (map fst data) = Ok ex -> default_edges n' (map snd data) = Ok ey ->
  generate_mesh fuel m ex ey data = Ok (Some mesh) -> Permutation ws (writes mesh data) ->
  Forall2 (fun p z => (exists x y, p = (Fin x, Fin y)) <-> exists i, (i < List.length mesh)%nat /\ z = Z.of_nat i) data (run_writes (List.length data) ws).
Proof.
  intros n n' fuel m data mesh ws Pn Pn' Hx Hy ex ey Ex Ey E P.
  destruct (C87_default_edges_cover n _ Pn Hx) as [rx [E1 [O1 [N1 [_ C1]]]]]. destruct (C87_default_edges_cover n' _ Pn' Hy) as [ry [E2 [O2 [N2 [_ C2]]]]].
  rewrite Ex in E1. rewrite Ey in E2. assert (ex = map Fin rx) by congruence. assert (ey = map Fin ry) by congruence. subst ex ey.
  pose proof (C84_bin_numbers _ _ _ _ _ _ _ O1 O2 E P) as F.
  assert (D : forall p, In p data -> (exists x y, p = (Fin x, Fin y)) -> region rx ry p).
  { intros p I [x [y ->]]. exists x, y. split; [reflexivity|]. rewrite N1, N2. split; [apply C1|apply C2]; apply in_map_iff; eexists; (split; [|exact I]); reflexivity. }
  revert F D. generalize (run_writes (List.length data) ws). clear. intros zb F D. induction F as [|p z data zb [A B] F IH]; constructor; [|apply IH; intros; apply D; [right|]; assumption].
  split; intro H.
  - destruct (A (D p (or_introl eq_refl) H)) as [i [c [-> [Nc _]]]]. exists i. split; [apply nth_error_Some; congruence|reflexivity].
  - destruct H as [i [_ ->]]. destruct p as [[x| | |] [y| | |]]; eauto; exfalso; specialize (B ltac:(intros [? [? [Q _]]]; discriminate)); lia.
Qed.

(* ------------------------------------------------------------------ C129: explicit edges *)
Theorem C129_explicit_edges : forall (e : list R) m, In m e -> (forall y, In y e -> y <= m) ->
  let e' := removelast e ++ [Rmax (1 / 100) (101 / 100 * m)] in explicit_edges (map Fin e) = Ok (map Fin e', map Fin e').
Proof.
  intros e m I H. cbv zeta. pose proof (widen_fin e m I H) as W. unfold widened in W. unfold explicit_edges.
  assert (N : existsb aisnan (map Fin e) = false) by (clear; induction e as [|x e IH]; [reflexivity|exact IH]).
  destruct (map Fin e) as [|a l] eqn:Em; [destruct e; [destruct I|discriminate]|]. rewrite <- Em in *. rewrite N, W. reflexivity.
Qed.
(** "the edges given are the edges used, and the caller's array is left alone" is false; the upper edge grows each time the array is used. *)
Theorem C129_edges_used_as_given_refuted : exists e : list R, strictly e /\
  explicit_edges (map Fin e) = Ok (map Fin [-3; -2; 1 / 100], map Fin [-3; -2; 1 / 100]) /\ nth 2 e 0 = -1.
Proof.
  exists [-3; -2; -1]. split.
  - intros i j L. cbn [List.length] in L. destruct i as [|[|i]], j as [|[|[|j]]]; try lia; cbn; lra.
  - split; [|reflexivity]. rewrite (C129_explicit_edges [-3; -2; -1] (-1)); [|cbn; auto|intros y [<-|[<-|[<-|[]]]]; lra].
    cbn [removelast app]. rewrite Rmax_left by lra. reflexivity.
Qed.
Theorem C129_edges_grow_on_reuse : forall (e : list R) m, (1 < List.length e)%nat -> In m e -> (forall y, In y e -> y <= m) ->
  exists e1 e2, explicit_edges (map Fin e) = Ok (map Fin e1, map Fin e1) /\ explicit_edges (map Fin e1) = Ok (map Fin e2, map Fin e2) /\
  m < nth (nbin e1) e1 0 < nth (nbin e2) e2 0 /\ nbin e1 = nbin e /\ nbin e2 = nbin e.
Proof.
  intros e m L I H. set (e1 := removelast e ++ [widened m]).
  assert (RL : forall l : list R, List.length (removelast l) = (List.length l - 1)%nat).
  { intro l. destruct l as [|a l]; [reflexivity|]. assert (Q : a :: l <> []) by discriminate. pose proof (app_removelast_last 0 Q) as A. apply (f_equal (@List.length R)) in A. rewrite app_length in A. cbn [List.length] in *. lia. }
  assert (LA : forall l : list R, forall v, nth (nbin (removelast l ++ [v])) (removelast l ++ [v]) 0 = v).
  { intros l v. unfold nbin. rewrite app_length, app_nth2; cbn [List.length]; [|lia]. replace (_ + 1 - 1 - _)%nat with 0%nat by lia. reflexivity. }
  assert (NB : forall (l : list R) v, (0 < List.length l)%nat -> nbin (removelast l ++ [v]) = nbin l) by (intros l v P; unfold nbin; rewrite app_length, RL; cbn; lia).
  assert (I1 : In (widened m) e1) by (apply in_app_iff; right; left; reflexivity).
  assert (H1 : forall y, In y e1 -> y <= widened m).
  { intros y J. apply in_app_iff in J. destruct J as [J|[<-|[]]]; [|lra]. left. eapply Rle_lt_trans; [apply H|apply widened_gt].
    destruct e as [|a l]; [destruct J|]. rewrite (app_removelast_last 0 (l := a :: l)) by discriminate. apply in_app_iff. left. exact J. }
  exists e1, (removelast e1 ++ [widened (widened m)]). split; [exact (C129_explicit_edges e m I H)|]. split; [exact (C129_explicit_edges e1 (widened m) I1 H1)|].
  assert (E1 : nth (nbin e1) e1 0 = widened m) by apply LA. split; [rewrite E1, LA; split; apply widened_gt|]. split; [apply NB; lia|]. rewrite NB; [apply NB; lia|]. unfold e1. rewrite app_length. cbn. lia.
Qed.

(* ------------------------------------------------------------------ C130: the cell filter *)
Definition box_area (c : box XR) : R := match c with mk_box (Fin a) (Fin b) (Fin a') (Fin b') => (b - a) * (b' - a') | _ => 0 end.
Lemma areas_fin mesh : Forall real_box mesh -> map area mesh = map Fin (map box_area mesh).
Proof.
  intro F. rewrite map_map. induction F as [|c l [a [b [a' [b' ->]]]] F IH]; [reflexivity|]. cbn [map]. rewrite IH. f_equal.
Qed.
(** the i/n quantile of a list of reals: linear interpolation between the neighbouring ranks of the sorted list *)
Definition rquantile (l : list R) (i n : nat) : R := qat (sort_by Rleb l) n i.
Lemma quantile_real l i n : l <> [] -> (0 < n)%nat -> (i <= n)%nat -> quantile (map Fin l) (i, n) = Fin (rquantile l i n).
Proof. intros N Pn Li. unfold quantile, rquantile. cbn [fst snd]. rewrite sort_fin. apply quantile_fin; auto. rewrite sort_by_length. destruct l; [congruence|cbn; lia]. Qed.
Lemma filter_shorter {X} (f : X -> bool) l : (List.length (filter f l) <= List.length l)%nat.
Proof. induction l as [|x l IH]; [cbn; lia|]. cbn [filter]. destruct (f x); cbn [List.length]; lia. Qed.
Theorem C130_filters_off_keep_everything : forall (mesh : list (box XR)) zbin, cell_filter None None mesh zbin = Ok (map (fun _ => true) mesh).
Proof. intros. unfold cell_filter. cbn [bind]. rewrite map_map. reflexivity. Qed.
Theorem C130_size_filter : forall mesh zbin i n, Forall real_box mesh -> mesh <> [] -> (0 < n)%nat -> (i <= n)%nat ->
  exists tk, cell_filter (Some (i, n)) None mesh zbin = Ok tk /\ Forall2 (fun c k => k = true <-> box_area c < rquantile (map box_area mesh) i n) mesh tk
  /\ INR (tally (fun k => k) tk) <= INR i / INR n * INR (List.length mesh - 1) + 1.
Proof.
  intros mesh zbin i n RM NE Pn Li. unfold cell_filter. rewrite (areas_fin mesh RM). set (l := map box_area mesh).
  assert (NL : l <> []) by (destruct mesh; [congruence|discriminate]).
  destruct (map Fin l) as [|a r] eqn:El; [destruct l; [congruence|discriminate]|]. rewrite <- El. cbn [bind]. rewrite (quantile_real l i n NL Pn Li).
  exists (map (fun a => altb a (Fin (rquantile l i n))) (map Fin l)). split; [reflexivity|]. split.
  - unfold l. rewrite !map_map. clear - mesh. generalize (rquantile (map box_area mesh) i n). intro q. induction mesh as [|c mesh IH]; constructor; [|exact IH]. rewrite fin_ltb. apply Rltb_true.
  - rewrite tally_map, tally_map. assert (LL : List.length l = List.length mesh) by (unfold l; apply map_length). rewrite <- LL. clear El a r LL. unfold rquantile. set (s := sort_by Rleb l).
    assert (PS : tally (fun x => altb (Fin x) (Fin (qat s n i))) l = tally (fun x => Rltb x (qat s n i)) s).
    { transitivity (tally (fun x => Rltb x (qat s n i)) l); [apply tally_ext; intros; apply fin_ltb|]. unfold tally. apply Permutation_length.
      assert (FP : forall (f : R -> bool) a b, Permutation a b -> Permutation (filter f a) (filter f b)).
      { intros f a b Q. induction Q as [|x a b Q IH|x y a|a b c Q1 IH1 Q2 IH2]; cbn [filter]; [constructor|destruct (f x); [constructor|]; exact IH|destruct (f x), (f y); try apply Permutation_refl; apply perm_swap|eapply perm_trans; eassumption]. }
      apply FP, Permutation_sym, sort_by_perm. }
    rewrite PS. assert (LS : List.length s = List.length l) by (unfold s; apply sort_by_length).
    assert (O : ordered s) by (apply SS_nth_le, sort_by_sorted; [apply Rleb_total|apply Rleb_trans]).
    assert (PL : (0 < List.length s)%nat) by (rewrite LS; destruct l; [congruence|cbn; lia]).
    set (h := ((List.length s - 1) * i)%nat). set (k := Nat.div h n). assert (Kb : (k < List.length s)%nat) by (apply div_small_index; lia).
    assert (TB : (tally (fun x => Rltb x (qat s n i)) s <= S k)%nat).
    { destruct (le_lt_dec (List.length s) (S k)) as [G|G]; [unfold tally; eapply Nat.le_trans; [apply filter_shorter|exact G]|].
      assert (QU : qat s n i <= nth (S k) s 0).
      { unfold qat. cbv zeta. fold h. fold k. rewrite (nth_indep s (nth k s 0) 0 G). assert (Sk : nth k s 0 <= nth (S k) s 0) by (apply O; lia).
        assert (Pn' : 0 < INR n) by (apply lt_0_INR; lia). assert (Nat.modulo h n < n)%nat by (apply Nat.mod_upper_bound; lia).
        assert (F1 : INR (h mod n) / INR n <= 1) by (apply (Rmult_le_reg_r (INR n)); [exact Pn'|]; unfold Rdiv; rewrite Rmult_assoc, Rinv_l, Rmult_1_r, Rmult_1_l by lra; apply le_INR; lia).
        assert ((nth (S k) s 0 - nth k s 0) * (INR (h mod n) / INR n) <= (nth (S k) s 0 - nth k s 0) * 1) by (apply Rmult_le_compat_l; lra). lra. }
      rewrite <- (firstn_skipn (S k) s) at 1. rewrite tally_app.
      assert (T2 : tally (fun x => Rltb x (qat s n i)) (skipn (S k) s) = 0%nat).
      { unfold tally. replace (filter _ _) with (@nil R); [reflexivity|]. symmetry.
        assert (NIL : forall (f : R -> bool) a, (forall x, In x a -> f x = false) -> filter f a = []) by (intros f a; induction a as [|x a IH]; intro Hf; [reflexivity|]; cbn [filter]; rewrite (Hf x (or_introl eq_refl)); apply IH; intros; apply Hf; right; assumption).
        apply NIL. intros x Ix. apply Rltb_false. destruct (In_nth _ _ 0 Ix) as [j [Lj <-]]. rewrite skipn_length in Lj.
        assert (NS : nth j (skipn (S k) s) 0 = nth (S k + j) s 0) by (rewrite <- (firstn_skipn (S k) s) at 2; rewrite app_nth2; rewrite firstn_length_le by lia; [f_equal; lia|lia]).
        rewrite NS. assert (nth (S k) s 0 <= nth (S k + j) s 0) by (apply O; lia). lra. }
      rewrite T2, Nat.add_0_r. unfold tally. eapply Nat.le_trans; [apply filter_shorter|]. rewrite firstn_length. lia. }
    eapply Rle_trans; [apply le_INR, TB|]. rewrite S_INR. apply Rplus_le_compat_r. rewrite <- LS.
    assert (Pn' : 0 < INR n) by (apply lt_0_INR; lia). apply (Rmult_le_reg_r (INR n)); [exact Pn'|]. replace (INR i / INR n * INR (List.length s - 1) * INR n) with (INR i * INR (List.length s - 1)) by (field; lra).
    rewrite <- !mult_INR. apply le_INR. unfold k. pose proof (Nat.div_mod h n ltac:(lia)). unfold h in *. lia.
Qed.
(** On a mesh of equal cells (for instance a uniform one that was never divided) every size filter removes every cell: nothing is left to show. *)
Theorem C130_uniform_mesh_is_emptied : forall mesh zbin i n a, Forall real_box mesh -> mesh <> [] -> (forall c, In c mesh -> box_area c = a) -> (0 < n)%nat -> (i <= n)%nat ->
  cell_filter (Some (i, n)) None mesh zbin = Ok (map (fun _ => false) mesh).
Proof.
  intros mesh zbin i n a RM NE EA Pn Li. destruct (C130_size_filter mesh zbin i n RM NE Pn Li) as [tk [-> [F _]]]. f_equal.
  assert (Q : rquantile (map box_area mesh) i n = a).
  { unfold rquantile. set (s := sort_by Rleb (map box_area mesh)).
    assert (AS : forall x, In x s -> x = a) by (intros x I; unfold s in I; apply sort_by_In in I; apply in_map_iff in I; destruct I as [c [<- I]]; apply EA, I).
    assert (PL : (0 < List.length s)%nat) by (unfold s; rewrite sort_by_length, map_length; destruct mesh; [congruence|cbn; lia]).
    unfold qat. cbv zeta. assert (K : (Nat.div ((List.length s - 1) * i) n < List.length s)%nat) by (apply div_small_index; lia).
    assert (N1 : nth (Nat.div ((List.length s - 1) * i) n) s 0 = a) by (apply AS, nth_In, K). rewrite N1.
    assert (N2 : nth (S (Nat.div ((List.length s - 1) * i) n)) s a = a).
    { destruct (le_lt_dec (List.length s) (S (Nat.div ((List.length s - 1) * i) n))) as [G|G]; [apply nth_overflow, G|apply AS, nth_In, G]. }
    rewrite N2. unfold Rdiv. ring. }
  rewrite Q in F. clear RM NE Q. induction F as [|c k mesh tk H F IH]; [reflexivity|]. cbn [map]. f_equal; [|apply IH; intros; apply EA; right; assumption].
  destruct k; [|reflexivity]. pose proof (proj1 H eq_refl). rewrite (EA c (or_introl eq_refl)) in H0. lra.
Qed.
(** the density filter cannot be used when a datum has no cell *)
Theorem C130_density_filter_refuses_outside_data : forall size q (mesh : list (box XR)) zbin, mesh <> [] -> In (-9999)%Z zbin -> cell_filter size (Some q) mesh zbin = Err ValueError.
Proof.
  intros size q mesh zbin NE I. unfold cell_filter. destruct mesh as [|c mesh]; [congruence|].
  assert (B : existsb (fun b => Z.ltb b 0) zbin = true) by (apply existsb_exists; exists (-9999)%Z; split; [exact I|reflexivity]).
  destruct size as [sq|]; cbn [map bind]; unfold bincount; rewrite B; reflexivity.
Qed.
(** the number of data in a cell, over its area *)
Definition box_density (mesh : list (box XR)) (zbin : list Z) (i : nat) (c : box XR) : R := INR (tally (fun b => Z.eqb b (Z.of_nat i)) zbin) / box_area c.
Theorem C130_density_filter : forall mesh zbin i n, Forall real_box mesh -> mesh <> [] -> (forall c, In c mesh -> 0 < box_area c) -> (forall b, In b zbin -> (0 <= b)%Z) ->
  (0 < n)%nat -> (i <= n)%nat ->
  let ds := map (fun kc => box_density mesh zbin (fst kc) (snd kc)) (combine (seq 0 (List.length mesh)) mesh) in
  exists tk, cell_filter None (Some (i, n)) mesh zbin = Ok tk /\ Forall2 (fun d k => k = true <-> rquantile ds i n < d) ds tk.
Proof.
  intros mesh zbin i n RM NE PA PZ Pn Li ds. unfold cell_filter. cbn [bind]. unfold bincount.
  assert (B : existsb (fun b => Z.ltb b 0) zbin = false) by (apply not_true_is_false; intro X; apply existsb_exists in X; destruct X as [b [I X]]; apply Z.ltb_lt in X; specialize (PZ b I); lia).
  rewrite B. cbn [bind].
  assert (DS : map (fun ca : nat * XR => adiv (ofnat (fst ca)) (snd ca)) (combine (map (fun i => List.length (filter (fun b => Z.eqb b (Z.of_nat i)) zbin)) (seq 0 (List.length mesh))) (map area mesh)) = map Fin ds).
  { unfold ds. rewrite map_map. rewrite (areas_fin mesh RM). clear - PA. generalize 0%nat as s. intro s. revert s. induction mesh as [|c mesh IH]; intro s; [reflexivity|]. cbn [List.length seq map combine fst snd]. rewrite IH by (intros; apply PA; right; assumption).
    f_equal. unfold box_density, ofnat. rewrite fin_ofZ, <- INR_IZR_INZ. apply fin_div. pose proof (PA c (or_introl eq_refl)). lra. }
  assert (ND : ds <> []) by (unfold ds; destruct mesh; [congruence|discriminate]).
  rewrite DS. destruct (map area mesh) as [|a r] eqn:Ea; [destruct mesh; [congruence|discriminate]|]. rewrite <- Ea. cbv zeta. rewrite (quantile_real ds i n ND Pn Li).
  eexists. split; [reflexivity|].
  assert (LL : List.length (map (fun _ : XR => true) (map area mesh)) = List.length ds) by (unfold ds; rewrite !map_length, combine_length, seq_length, Nat.min_id; reflexivity).
  assert (TT : forall x, In x (map (fun _ : XR => true) (map area mesh)) -> x = true) by (intros x I; apply in_map_iff in I; destruct I as [? [<- _]]; reflexivity).
  revert LL TT. generalize (map (fun _ : XR => true) (map area mesh)) (rquantile ds i n). clearbody ds. clear. intros l q. revert l. induction ds as [|d ds IH]; intros [|t l] L T; try discriminate; cbn [combine map]; constructor; [|apply IH; [cbn in L; lia|intros; apply T; right; assumption]].
  cbn [fst snd]. rewrite (T t (or_introl eq_refl)), fin_ltb. cbn [andb]. apply Rltb_true.
Qed.

(* ------------------------------------------------------------------ a mesh that really is divided *)
Lemma ordered_012 : ordered [0; 1; 2].
Proof. intros i j L. destruct (Nat.eq_dec i j) as [->|N]; [lra|]. left. apply strictly_012. lia. Qed.
Definition two_points : list (XR * XR) := [(Fin (1/4), Fin (1/4)); (Fin (3/4), Fin (3/4))].
Example spiral_witness : (forall p, In p two_points -> region [0; 1; 2] [0; 1; 2] p) /\
  exists fuel mesh, generate_mesh fuel 1 (map Fin [0; 1; 2]) (map Fin [0; 1; 2]) two_points = Ok (Some mesh) /\ mesh <> map (cell0 [0; 1; 2] [0; 1; 2]) (grid [0; 1; 2] [0; 1; 2]).
Proof.
  split.
  - intros p [<-|[<-|[]]]; (do 2 eexists; split; [reflexivity|]; unfold nbin; cbn; lra).
  - assert (T : exists fuel mesh, generate_mesh fuel 1 (map Fin [0; 1; 2]) (map Fin [0; 1; 2]) two_points = Ok (Some mesh)).
    { apply (proj2 (C86_terminates_iff 1 [0; 1; 2] [0; 1; 2] two_points ordered_012 ordered_012 ltac:(cbv; lia) ltac:(cbv; lia))).
      intros x y _. unfold copies, two_points. rewrite !tally_cons. cbn [same]. destruct (Reqb (1 / 4) x) eqn:A; destruct (Reqb (3 / 4) x) eqn:B; try (cbn; destruct (Reqb (1 / 4) y), (Reqb (3 / 4) y); cbn; lia).
      apply Reqb_true in A. apply Reqb_true in B. exfalso. lra. }
    destruct T as [fuel [mesh E]]. exists fuel, mesh. split; [exact E|]. intro X.
    assert (I : In (cell0 [0; 1; 2] [0; 1; 2] (0%nat, 0%nat)) mesh) by (rewrite X; apply in_map; unfold grid; apply in_prod; apply in_seq; cbn; lia).
    assert (L : (2 <= 1)%nat); [|lia]. change 2%nat with (List.length [0%nat; 1%nat]). eapply (C85_cells_respect_threshold _ _ _ _ _ _ ordered_012 ordered_012 E _ [0%nat; 1%nat] I).
    + repeat constructor; cbn; intuition lia.
    + intros k [<-|[<-|[]]]; (eexists; split; [reflexivity|]; unfold inside, cell0; do 6 eexists; split; [reflexivity|split; [reflexivity|]]; cbn; lra).
Qed.
Example default_edges_witness : exists e, default_edges 2 [Fin 3; NaN; Fin (-5); PInf; Fin 1] = Ok (map Fin e) /\ nbin e = 2%nat /\ nth 0 e 0 <= -5 /\ 3 < nth 2 e 0.
Proof.
  destruct (C87_default_edges_cover 2 [Fin 3; NaN; Fin (-5); PInf; Fin 1]) as [e [E [_ [N [_ C]]]]]; [lia|exists 3; left; reflexivity|].
  exists e. split; [exact E|]. split; [exact N|]. split; [apply C; cbn; auto|apply C; cbn; auto].
Qed.
