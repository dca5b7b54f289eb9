(** Theorems added after mutation runs (see seeded/LOG.jsonl), ninth group. *)
From Coq Require Import Reals List String Ascii Bool Arith ZArith Lia Lra.
From Verif Require Import Py PyStr Num Labels LabelsThms MoreLabelsThms Tight5Thms PlotTools PlotToolsThms Orbits OrbitsThms Hist HistThms HistMoreThms Spiral SpiralThms
  FitCore FitFuncs FitFuncsThms FitGuessThms FitShapeThms FitCoreThms Tight3Thms.
Import ListNotations.
Open Scope list_scope.
Open Scope string_scope.

(* ---------------------------------------------------------------- labels *)
(** A quantity filed in a directory: its probability and its count are filed in the directory named by the first component. *)
Theorem C183_directories : forall other a b sign word v nl d, l_path other = [a; b] -> component a -> component b -> In (sign, word) signs -> value v ->
  l_path (probability_label other (sign ++ v) d) = ["prob-" ++ spaced "-" a; spaced "-" b ++ "-" ++ word ++ v]
  /\ l_path (count_other_label other (sign ++ v) nl d) = ["cnt-" ++ spaced "-" a; spaced "-" b ++ "-" ++ word ++ v].
Proof.
  intros other a b sign word v nl d HP (A1 & A2 & A3) (B1 & B2 & B3) I V.
  assert (W : has_char "/" word = false) by (cbn in I; destruct I as [E|[E|[E|[E|[]]]]]; injection E as <- <-; reflexivity).
  assert (WN : exists c r, (word = String c r)) by (cbn in I; destruct I as [E|[E|[E|[E|[]]]]]; injection E as <- <-; eexists _, _; reflexivity).
  assert (PS : replace " " "-" (path_str (l_path other)) = (spaced "-" a ++ String "/" (spaced "-" b))).
  { rewrite HP. cbn [path_str join]. rewrite replace_write. change ("/" ++ b) with (String "/" b). rewrite write_app. reflexivity. }
  assert (FA : has_char "/" (spaced "-" a) = false) by (apply write_free; [reflexivity|exact A1]).
  assert (FB : has_char "/" (spaced "-" b ++ "-" ++ word ++ v) = false) by (rewrite !has_app, W, (value_slash v V); unfold spaced; rewrite write_free by (assumption || reflexivity); reflexivity).
  assert (G : forall h, has_char "/" h = false -> (exists c r, h = String c (String "-" r) \/ True) -> h <> "" -> h <> "." -> True) by auto. clear G.
  assert (K : forall h c r, h = String c (String "n" r) \/ h = String c (String "r" r) -> has_char "/" h = false ->
    mkpath (h ++ (spaced "-" a ++ String "/" (spaced "-" b)) ++ "-" ++ word ++ v) = [h ++ spaced "-" a; spaced "-" b ++ "-" ++ word ++ v]).
  { intros h c r HH FH. unfold mkpath.
    replace (h ++ (spaced "-" a ++ String "/" (spaced "-" b)) ++ "-" ++ word ++ v) with ((h ++ spaced "-" a) ++ String "/" (spaced "-" b ++ "-" ++ word ++ v))
      by (rewrite !sapp_assoc; cbn [String.append]; rewrite ?sapp_assoc; reflexivity).
    assert (SP : forall x y, has_char "/" x = false -> has_char "/" y = false -> split_on "/" (x ++ String "/" y) = [x; y]).
    { intros x y X Y. change (x ++ String "/" y) with (x ++ String "/" "" ++ y). change (x ++ String "/" "" ++ y) with (join (String "/" "") [x; y]). apply split_join; [discriminate|].
      intros p [<-|[<-|[]]]; assumption. }
    rewrite SP; [|rewrite has_app, FH, FA; reflexivity|exact FB]. cbn [filter].
    assert (E1 : String.eqb (h ++ spaced "-" a) "" || String.eqb (h ++ spaced "-" a) "." = false).
    { destruct HH as [->| ->]; cbn; destruct (Ascii.eqb c "."); reflexivity. }
    assert (E2 : String.eqb (spaced "-" b ++ "-" ++ word ++ v) "" || String.eqb (spaced "-" b ++ "-" ++ word ++ v) "." = false).
    { destruct (spaced "-" b) as [|x y]; [destruct WN as (k & q & ->); reflexivity|]. cbn. destruct (Ascii.eqb x "."); [|reflexivity]. destruct y; reflexivity. }
    rewrite E1, E2. reflexivity. }
  unfold probability_label, count_other_label. cbn [l_path]. rewrite PS, !(sign_path _ sign word v I V). split.
  - apply (K "prob-" "p"%char "ob-"); [right; reflexivity|reflexivity].
  - apply (K "cnt-" "c"%char "t-"); [left; reflexivity|reflexivity].
Qed.
(** Spaces in the comparison become "_" in the file name of a probability and stay in that of a count. *)
Theorem C183_spaced_comparison : forall other p v nl d, l_path other = [p] -> component p -> value v ->
  l_path (probability_label other ("> " ++ v) d) = ["prob-" ++ spaced "-" p ++ "-GT_" ++ v]
  /\ l_path (count_other_label other ("> " ++ v) nl d) = ["cnt-" ++ spaced "-" p ++ "-GT " ++ v].
Proof.
  intros other p v nl d HP (P1 & P2 & P3) V.
  assert (PS : path_str (l_path other) = p) by (rewrite HP; reflexivity).
  assert (O : forall o n, (match o with String c _ => has_char c "<>=!\" = true | "" => False end) -> replace o n ("GT " ++ v) = "GT " ++ v).
  { intros o n X. destruct o as [|c o]; [destruct X|]. apply replace_other. rewrite has_app. rewrite (value_free c v); [|cbn in *; repeat (apply orb_true_iff in X; destruct X as [X|X]); try discriminate; apply Ascii.eqb_eq in X; subst c; reflexivity|exact V].
    cbn in X. repeat (apply orb_true_iff in X; destruct X as [X|X]); try discriminate; apply Ascii.eqb_eq in X; subst c; reflexivity. }
  assert (C : forall sp : bool, comparison_path sp ("> " ++ v) = (if sp then "GT_" else "GT ") ++ v).
  { intros sp. unfold comparison_path. cbv zeta. change ("> " ++ v) with (">" ++ (String " " v)). rewrite (replace_hit ">" "GT") by discriminate.
    assert (S0 : replace ">" "GT" (String " " v) = String " " v) by (rewrite (shifted ">" "" "GT" " " v eq_refl), (value_keeps ">" "GT" v V eq_refl); reflexivity).
    rewrite S0. change ("GT" ++ String " " v) with ("GT " ++ v). rewrite !O by reflexivity. destruct sp; [|reflexivity].
    rewrite replace_write. change ("GT " ++ v) with (String "G" (String "T" (String " " v))). cbn [write_char Ascii.eqb Bool.eqb String.append]. rewrite (write_absent " " "_" v) by (apply value_free; [reflexivity|exact V]). reflexivity. }
  unfold probability_label, count_other_label. cbn [l_path]. rewrite PS, !C, replace_write. fold (spaced "-" p).
  assert (F : forall h t, has_char "/" h = false -> has_char "/" t = false -> has_char "/" (h ++ spaced "-" p ++ t ++ v) = false).
  { intros h t H1 H2. rewrite !has_app, H1, H2, (value_slash v V). unfold spaced. rewrite write_free by (assumption || reflexivity). reflexivity. }
  split; apply mkpath_single; try discriminate.
  - apply (F "prob-" "-GT_"); reflexivity.
  - apply (F "cnt-" "-GT "); reflexivity.
Qed.
Theorem C183_distance_text : forall lower units d l, distance2sun_label lower units d = Ok l -> l_tex l = "\mathrm{Distance \; to \; Sun}".
Proof. intros lower units d l. unfold distance2sun_label. cbv zeta. destruct (negb _); [discriminate|]. intros H. assert (E : forall a b : label, Ok a = Ok b -> a = b) by congruence. apply E in H. subst l. reflexivity. Qed.

(* ---------------------------------------------------------------- figures *)
(** An axes that does not exist cannot carry the legend. *)
Theorem C82_no_such_axes axs idx : (idx < - Z.of_nat (List.length axs) \/ Z.of_nat (List.length axs) <= idx)%Z -> joint_legend axs idx = Err IndexError.
Proof.
  intros H. unfold joint_legend, py_index. cbv zeta. destruct (Z.ltb_spec idx 0) as [L|L].
  - destruct (Z.leb_spec 0 (idx + Z.of_nat (List.length axs))); [lia|]. reflexivity.
  - destruct (Z.leb_spec 0 idx); [|lia]. destruct (Z.ltb_spec idx (Z.of_nat (List.length axs))); [lia|]. reflexivity.
Qed.
(** The colour bar of a leg's plot raises TypeError. *)
Theorem C159_colour_bar_error : forall norm kind l, names_leg kind l -> make_one_plot norm kind false false true = Err TypeError /\ make_in_out_plot norm false false true = Err TypeError.
Proof.
  intros norm kind l H. unfold make_one_plot, make_in_out_plot. rewrite (proj2 (proj1 (plot_kind_spec kind) l) H). cbn [bind]. unfold put_on_ax. destruct norm; split; reflexivity.
Qed.
(** Selecting without a box is refused. *)
Theorem C124_no_boxes : forall data : list (Z * (XR * XR)), take_boxes [] data = Err ValueError.
Proof. reflexivity. Qed.
(** Without finite data an integer number of bins divides the interval from 0 to 1. *)
Theorem C123_no_data : forall (data : list XR) n, (0 < n)%nat -> (forall x, ~ In (Fin x) data) ->
  bin_edges (fun v => v) (NInt n) data = Ok (map (fun i => Fin (INR i / INR n)) (seq 0 (S n))).
Proof.
  intros data n P N. unfold bin_edges. assert (E : finite data = []).
  { unfold finite. induction data as [|v data IH]; [reflexivity|]. cbn [filter]. destruct v as [x| | |]; [exfalso; apply (N x); left; reflexivity|..]; (apply IH; intros y Y; apply (N y); right; exact Y). }
  rewrite E. destruct n as [|n]; [lia|]. cbn [outer_edges]. rewrite fin_a0, fin_a1. cbn [bind]. rewrite linspace_fin by lia. rewrite map_id. unfold even_edges. rewrite map_map. f_equal. apply map_ext. intros i. f_equal. lra.
Qed.
(** Data that are not finite make no difference to the mesh, whatever its edges. *)
Theorem C87_only_finite_data : forall fuel m (ex ey : list XR) data,
  generate_mesh fuel m ex ey data = generate_mesh fuel m ex ey (filter (fun p => match p with (Fin _, Fin _) => true | _ => false end) data).
Proof.
  intros fuel m ex ey data. unfold generate_mesh. destruct (initialize_bins ex ey) as [|c cells]; [reflexivity|]. do 3 f_equal.
  generalize (c :: cells). intros cs. induction data as [|[x y] data IH]; [reflexivity|]. cbn [filter].
  assert (NF : in_mesh cs (x, y) = true -> (exists u, x = Fin u) /\ exists w, y = Fin w).
  { intros H. unfold in_mesh in H. cbn [fst snd] in H. repeat (apply andb_prop in H; destruct H as [H ?]).
    split; [destruct x as [u| | |]; try discriminate; exists u; reflexivity|destruct y as [u| | |]; try discriminate; exists u; reflexivity]. }
  destruct x as [u| | |]; [destruct y as [w| | |]|..]; cbn [filter].
  1: rewrite IH; reflexivity.
  all: destruct (in_mesh cs _) eqn:E; [|exact IH]; exfalso; destruct (NF eq_refl) as [(u1 & U) (w1 & W)]; discriminate.
Qed.
(** A cell filter for another number of cells is refused. *)
Theorem C128_filter_of_other_mesh : forall (f : fcn (T := XR)) clim keep n zbin z, (forall b, In b zbin -> b <> (-9999)%Z) -> List.length zbin = List.length z -> List.length keep <> n ->
  spiral_agg f clim keep n zbin z = Err ValueError.
Proof.
  intros f clim keep n zbin z NB L NK. unfold spiral_agg, build_cat. assert (E : existsb (Z.eqb (-9999)) zbin = false).
  { destruct (existsb (Z.eqb (-9999)) zbin) eqn:X; [|reflexivity]. apply existsb_exists in X. destruct X as (b & B1 & B2). apply Z.eqb_eq in B2. exfalso. exact (NB b B1 (eq_sym B2)). }
  rewrite E. cbn [bind]. rewrite L, Nat.eqb_refl. cbn [negb]. apply Nat.eqb_neq in NK. rewrite NK. reflexivity.
Qed.

(* ---------------------------------------------------------------- starts of fits *)
Open Scope R_scope.
(** HingeAtPoint starts at the guessed abscissa with the height of the datum nearest to it. *)
Theorem C103_hinge_at_point_height : forall pts xh p, hinge_at_point_p0 (Fin xh) (real_obs pts) = Ok (Some p) ->
  exists q m1 m2, In q pts /\ p = [Fin xh; Fin (snd q); m1; m2] /\ forall z, In z pts -> Rabs (fst q - xh) <= Rabs (fst z - xh).
Proof.
  intros pts xh p H. unfold hinge_at_point_p0, real_obs in H. cbn [o_x o_y] in H.
  assert (C : combine (xs_of pts) (ys_of pts) = map (fun z => (Fin (fst z), Fin (snd z))) pts).
  { clear H. unfold xs_of, ys_of. induction pts as [|z pts IH]; [reflexivity|]. cbn [map combine]. f_equal. apply IH. }
  rewrite C in H. destruct pts as [|q0 pts]; [discriminate|]. cbn [map] in H.
  assert (G : forall l b, exists q, In q (b :: l) /\ nearest (Fin xh) (Fin (fst b), Fin (snd b)) (map (fun z => (Fin (fst z), Fin (snd z))) l) = Fin (snd q) /\ forall z, In z (b :: l) -> Rabs (fst q - xh) <= Rabs (fst z - xh)).
  { induction l as [|z l IH]; intros b.
    - exists b. split; [left; reflexivity|]. split; [reflexivity|]. intros z [<-|[]]. lra.
    - cbn [map nearest fst]. rewrite !fin_sub, !fin_abs, fin_ltb. destruct (Rltb (Rabs (fst z - xh)) (Rabs (fst b - xh))) eqn:E.
      + apply Rltb_true in E. destruct (IH z) as (q & Q1 & Q2 & Q3). exists q. split; [right; exact Q1|]. split; [exact Q2|]. intros w [<-|W]; [specialize (Q3 z (or_introl eq_refl)); lra|exact (Q3 w W)].
      + apply Rltb_false in E. destruct (IH b) as (q & Q1 & Q2 & Q3). exists q. split; [destruct Q1 as [<-|Q1]; [left; reflexivity|right; right; exact Q1]|]. split; [exact Q2|].
        intros w [<-|[<-|W]]; [exact (Q3 b (or_introl eq_refl))|specialize (Q3 b (or_introl eq_refl)); lra|apply Q3; right; exact W]. }
  destruct (G pts q0) as (q & Q1 & Q2 & Q3). rewrite Q2 in H. destruct (arr_min _) as [xmin|e]; [|discriminate]. cbn [bind] in H. cbv zeta in H.
  match type of H with Ok (Some ?l) = _ => assert (E : p = l) by congruence end. rewrite E. exists q. eexists _, _. split; [exact Q1|]. split; [reflexivity|exact Q3].
Qed.
Close Scope R_scope.
(** The hypotheses are met: a normalised count is filed in a directory; two points determine a start. *)
Example C183_directories_ex : exists l, count_label (fun s => s) (fun s => s) (Some "c") None = Ok l
  /\ l_path (probability_label l ">5" None) = ["prob-count"; "cnorm-GT5"].
Proof. eexists. split; reflexivity. Qed.
Example C103_height_ex : exists p, hinge_at_point_p0 (Fin 1) (real_obs [(0, 1); (2, 5); (3, 5)]%R) = Ok (Some p).
Proof. unfold hinge_at_point_p0, real_obs. cbn [o_x o_y xs_of ys_of map combine fst snd]. destruct (arr_min_fin (0 :: [2; 3])%R) as (lo & E & _); [discriminate|]. cbn [map] in E. rewrite E. cbn [bind]. eexists. reflexivity. Qed.
Example C128_filter_ex : spiral_agg (T := XR) FCount (None, None) [true] 2 [0; 1]%Z [Fin 1; Fin 2] = Err ValueError.
Proof. apply C128_filter_of_other_mesh; [intros b [<-|[<-|[]]]; discriminate|reflexivity|discriminate]. Qed.
