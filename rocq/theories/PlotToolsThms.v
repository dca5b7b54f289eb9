(** Properties C80-C83 of plotting/tools.py. *)
From Coq Require Import List ZArith QArith String Bool Lia Reals Lra Znumtheory Permutation Sorted.
From Verif Require Import Py PyStr Sort Num PlotTools.
Import ListNotations.
Open Scope Z_scope.

(* ------------------------------------------------------------ C80 *)

Lemma shrink_root_spec fuel : forall n root, 1 <= n -> 1 <= root -> (Z.to_nat root < fuel)%nat ->
  exists d, shrink_root fuel n root = Ok d /\ 1 <= d <= root /\ (d | n) /\
    forall e, 1 <= e <= root -> (e | n) -> e <= d.
Proof.
  induction fuel as [|f IH]; intros n root Hn Hr Hf; [lia|].
  simpl. destruct (Z.eqb_spec root 0) as [E|_]; [lia|].
  destruct (Z.eqb_spec (n mod root) 0) as [E|E].
  - exists root. split; [reflexivity|]. split; [lia|]. split; [apply Z.mod_divide; lia|]. intros e He _; lia.
  - assert (root <> 1) by (intros ->; rewrite Z.mod_1_r in E; lia).
    destruct (IH n (root - 1) Hn) as (d & E1 & E2 & E3 & E4); [lia|lia|].
    exists d. split; [exact E1|]. split; [lia|]. split; [exact E3|].
    intros e He D. apply E4; [|exact D].
    destruct (Z.eq_dec e root) as [->|]; [|lia].
    apply Z.mod_divide in D; [congruence|lia].
Qed.

Lemma near_square_spec n : 1 <= n ->
  exists d, near_square n = Ok (d, n / d) /\ 1 <= d /\ d * (n / d) = n /\ d <= n / d /\
    forall a b, 1 <= a <= b -> a * b = n -> a <= d.
Proof.
  intros Hn. unfold near_square. destruct (Z.ltb_spec n 0) as [H|_]; [lia|].
  pose proof (Z.sqrt_spec n ltac:(lia)) as Hs. cbv zeta in Hs.
  assert (1 <= Z.sqrt n) by (apply (Z.sqrt_le_mono 1 n); lia).
  destruct (shrink_root_spec (S (Z.to_nat (Z.sqrt n))) n (Z.sqrt n)) as (d & E1 & E2 & E3 & E4); [lia|lia|lia|].
  rewrite E1. cbn [bind]. exists d. split; [reflexivity|]. split; [lia|].
  assert (Hd : d * (n / d) = n) by (destruct E3 as [q ->]; rewrite Z.div_mul by lia; lia).
  split; [exact Hd|]. split.
  - apply Z.div_le_lower_bound; nia.
  - intros a b Hab Hn'. apply E4; [|exists b; lia].
    split; [lia|]. apply Z.sqrt_le_square; nia.
Qed.

Lemma near_square_prime n : 4 < n ->
  forall d q, near_square n = Ok (d, q) -> (d = 1 <-> prime n).
Proof.
  intros Hn d q E. destruct (near_square_spec n) as (d' & E' & H1 & H2 & H3 & H4); [lia|].
  rewrite E in E'. injection E' as <- ->. split.
  - intros ->. apply prime_alt. split; [lia|]. intros e He [f Hf].
    assert (1 < f) by nia.
    destruct (Z.le_gt_cases e f).
    + specialize (H4 e f ltac:(lia) ltac:(lia)). lia.
    + specialize (H4 f e ltac:(lia) ltac:(lia)). lia.
  - intros P. apply prime_alt in P as [_ P].
    destruct (Z.eq_dec d 1) as [|N]; [assumption|].
    exfalso. apply (P d); [nia|]. exists (n / d). lia.
Qed.

(** C80: for every n >= 1 the call returns; the grid has exactly n cells unless n is a prime above 4, when it
    has exactly one spare cell; for n > 4 the grid is never a single row or column; no other grid with as
    many cells is closer to a square; small grids are wide, large ones tall. *)
Theorem C80_grid_fits n : 1 <= n ->
  exists nrows ncols, calculate_nrows_ncols n = Ok (nrows, ncols) /\ 1 <= nrows /\ 1 <= ncols /\
    ((prime n /\ 4 < n) /\ nrows * ncols = n + 1 \/ ~ (prime n /\ 4 < n) /\ nrows * ncols = n) /\
    (4 < n -> 2 <= nrows /\ 2 <= ncols) /\
    (forall a b, 1 <= a <= b -> a * b = nrows * ncols -> a <= Z.min nrows ncols) /\
    (Z.max nrows ncols < 4 -> nrows <= ncols) /\ (4 <= Z.max nrows ncols -> ncols <= nrows).
Proof.
  intros Hn. unfold calculate_nrows_ncols.
  destruct (near_square_spec n Hn) as (d & E & H1 & H2 & H3 & H4). rewrite E. cbn [bind fst snd].
  assert (Fin : forall d q m, 1 <= d -> d * q = m -> d <= q ->
     (forall a b, 1 <= a <= b -> a * b = m -> a <= d) ->
     ((prime n /\ 4 < n) /\ m = n + 1 \/ ~ (prime n /\ 4 < n) /\ m = n) -> (4 < n -> 2 <= d) ->
     exists nrows ncols,
      (if Z.max d q <? 4 then Ok (Z.min d q, Z.max d q) else Ok (Z.max d q, Z.min d q)) = Ok (nrows, ncols)
      /\ 1 <= nrows /\ 1 <= ncols /\
    ((prime n /\ 4 < n) /\ nrows * ncols = n + 1 \/ ~ (prime n /\ 4 < n) /\ nrows * ncols = n) /\
    (4 < n -> 2 <= nrows /\ 2 <= ncols) /\
    (forall a b, 1 <= a <= b -> a * b = nrows * ncols -> a <= Z.min nrows ncols) /\
    (Z.max nrows ncols < 4 -> nrows <= ncols) /\ (4 <= Z.max nrows ncols -> ncols <= nrows)).
  { clear. intros d q m H1 H2 H3 H4 H5 H6. rewrite (Z.max_r d q), (Z.min_l d q) by lia.
    destruct (Z.ltb_spec q 4) as [L|L].
    - exists d, q. rewrite H2. repeat (split; [first [reflexivity|lia|exact H5]|]).
      split; [intros a b Ha Hb; rewrite Z.min_l by lia; exact (H4 a b Ha Hb)|]. lia.
    - exists q, d. rewrite (Z.mul_comm q d), H2. repeat (split; [first [reflexivity|lia|exact H5]|]).
      split; [intros a b Ha Hb; rewrite Z.min_r by lia; exact (H4 a b Ha Hb)|]. lia. }
  destruct (Z.ltb_spec 4 n) as [L|L].
  - pose proof (near_square_prime n L d _ E) as P.
    destruct (Z.eqb_spec d 1) as [Hd|Hd].
    + rewrite Bool.orb_true_r, Bool.andb_true_l.
      destruct (near_square_spec (n + 1)) as (d2 & F & K1 & K2 & K3 & K4); [lia|]. rewrite F. cbn [bind fst snd].
      apply (Fin d2 ((n + 1) / d2) (n + 1)); auto.
      * left. split; [|reflexivity]. split; [apply P, Hd|lia].
      * intros _. assert (Pn : prime n) by (apply P, Hd). apply prime_alt in Pn as [_ Pn].
        specialize (Pn 2 ltac:(lia)).
        destruct (Z.Even_or_Odd n) as [[k Ek]|[k Ek]]; [exfalso; apply Pn; exists k; lia|].
        apply (K4 2 (k + 1)); lia.
    + destruct (Z.eqb_spec (n / d) 1) as [Q|_]; [nia|].
      cbn [orb andb bind fst snd]. apply (Fin d (n / d) n); auto; [|lia].
      right. split; [|reflexivity]. intros [Pn _]. apply P in Pn. lia.
  - rewrite Bool.andb_false_r. cbn [bind fst snd]. apply (Fin d (n / d) n); auto; [|lia].
    right. split; [lia|reflexivity].
Qed.

(** and the only other calls fail: zero panels divide by zero, a negative count is a ValueError *)
Theorem C80_invalid_counts n : n < 1 ->
  calculate_nrows_ncols n = Err (if n =? 0 then ZeroDivisionError else ValueError).
Proof.
  intros H. unfold calculate_nrows_ncols, near_square. destruct (Z.ltb_spec n 0) as [L|L].
  - destruct (Z.eqb_spec n 0); [lia|reflexivity].
  - assert (n = 0) as -> by lia. reflexivity.
Qed.

Example C80_witness : calculate_nrows_ncols 13 = Ok (7, 2) /\ calculate_nrows_ncols 6 = Ok (2, 3)
  /\ calculate_nrows_ncols 3 = Ok (1, 3) /\ prime 13.
Proof.
  split; [reflexivity|]. split; [reflexivity|]. split; [reflexivity|].
  constructor; [lia|]. intros e He. apply Zgcd_1_rel_prime.
  assert (K : forall k, (k < 13)%nat -> (0 < k)%nat -> Z.gcd (Z.of_nat k) 13 = 1).
  { intros k H1 H2. do 13 (destruct k as [|k]; [try reflexivity; lia|]). lia. }
  rewrite <- (Z2Nat.id e) by lia. apply K; lia.
Qed.

(* ------------------------------------------------------------ C81 *)

(** A grid cell lies in a block. *)
Definition in_block (b : block) (r c : nat) : Prop := (r_top b <= r <= r_bot b /\ c_left b <= c <= c_right b)%nat.

(** On which side of the panel (r,c) the block [b] lies. *)
Definition beside (loc : string) (b : block) (r c : nat) : Prop :=
  (loc = "left"%string -> c_right b < c)%nat /\ (loc = "right"%string -> c < c_left b)%nat /\
  (loc = "top"%string -> r_bot b < r)%nat /\ (loc = "bottom"%string -> r < r_top b)%nat.

Lemma py_index_ok n i k : py_index n i = Ok k ->
  (k < n)%nat /\ (Z.of_nat k = i \/ (i < 0 /\ Z.of_nat k = i + Z.of_nat n)).
Proof.
  unfold py_index. cbv zeta. destruct (Z.ltb_spec i 0) as [L|L];
  match goal with |- (if ?b then _ else _) = _ -> _ => destruct b eqn:B end; try discriminate;
  apply andb_prop in B as [B1 B2]; apply Z.leb_le in B1; apply Z.ltb_lt in B2; intros [= <-]; lia.
Qed.
Lemma py_index_some n i : 0 <= i < Z.of_nat n -> py_index n i = Ok (Z.to_nat i).
Proof.
  intros H. unfold py_index. cbv zeta. destruct (Z.ltb_spec i 0) as [L|L]; [lia|].
  destruct (Z.leb_spec 0 i); [|lia]. destruct (Z.ltb_spec i (Z.of_nat n)); [reflexivity|lia].
Qed.

(** the axes created at row offset [i0], column offset [j0] *)
Definition grid_axes (i0 j0 nrows ncols : nat) (sx sy : bool) : list (list axes) :=
  map (fun r => map (fun c =>
     let first := (Nat.eqb r 0 && Nat.eqb c 0)%bool in
     mkaxes (mkblock (i0 + r) (i0 + r) (j0 + c) (j0 + c)) (negb first && sx) (negb first && sy))
     (seq 0 ncols)) (seq 0 nrows).

Lemma combine_seq_range k0 lo n :
  combine (seq k0 n) (map (fun k => lo + Z.of_nat k) (seq k0 n)) = map (fun k => (k, lo + Z.of_nat k)) (seq k0 n).
Proof. revert k0; induction n as [|n IH]; intros k0; simpl; [reflexivity|]. rewrite IH. reflexivity. Qed.

Lemma mapM_map {A B C} (g : A -> B) (f : B -> result C) l : mapM f (map g l) = mapM (fun x => f (g x)) l.
Proof. induction l as [|x l IH]; simpl; [reflexivity|]. rewrite IH. reflexivity. Qed.

Lemma build_axes_grid nr nc i0 j0 nrows ncols sx sy :
  (i0 + nrows <= nr)%nat -> (j0 + ncols <= nc)%nat ->
  build_axes nr nc (py_range (Z.of_nat i0) (Z.of_nat nrows + Z.of_nat i0))
                   (py_range (Z.of_nat j0) (Z.of_nat ncols + Z.of_nat j0)) sx sy
  = Ok (grid_axes i0 j0 nrows ncols sx sy).
Proof.
  intros Hr Hc. unfold build_axes, py_range.
  rewrite !map_length, !seq_length, !Z.add_simpl_r, !Nat2Z.id, !combine_seq_range.
  unfold grid_axes. rewrite mapM_map.
  rewrite <- (mapM_pure _ (seq 0 nrows)). apply mapM_ext. intros r Hin. apply in_seq in Hin.
  rewrite mapM_map, <- (mapM_pure _ (seq 0 ncols)). apply mapM_ext. intros c Hic. apply in_seq in Hic.
  cbn [fst snd]. unfold cell_block. rewrite !py_index_some by lia. cbn [bind].
  rewrite <- !Nat2Z.inj_add, !Nat2Z.id. reflexivity.
Qed.

Definition fig_ax (f : figure) (i j : nat) : option axes :=
  match nth_error (f_axes f) i with Some row => nth_error row j | None => None end.

Lemma nth_error_seq n s i : (i < n)%nat -> nth_error (seq s n) i = Some (s + i)%nat.
Proof.
  revert s i; induction n as [|n IH]; intros s [|i] H; try lia; simpl.
  - f_equal; lia.
  - rewrite IH by lia. f_equal; lia.
Qed.

Lemma grid_axes_nth i0 j0 nrows ncols sx sy i j : (i < nrows)%nat -> (j < ncols)%nat ->
  match nth_error (grid_axes i0 j0 nrows ncols sx sy) i with Some row => nth_error row j | None => None end
  = Some (mkaxes (mkblock (i0 + i) (i0 + i) (j0 + j) (j0 + j))
            (negb (Nat.eqb i 0 && Nat.eqb j 0) && sx) (negb (Nat.eqb i 0 && Nat.eqb j 0) && sy)).
Proof.
  intros Hi Hj. unfold grid_axes. erewrite map_nth_error by (apply nth_error_seq, Hi).
  erewrite map_nth_error by (apply nth_error_seq, Hj). reflexivity.
Qed.

Lemma nth_error_repeat {A} (a : A) n i : (i < n)%nat -> nth_error (repeat a n) i = Some a.
Proof. revert i; induction n as [|n IH]; intros [|i] H; try lia; simpl; [reflexivity|]. apply IH; lia. Qed.

(** What it means for the figure to be laid out properly. *)
Record good_layout (loc : string) (nrows ncols : nat) (sx sy : bool) (f : figure) : Prop := {
  (* an axes for each position and no other *)
  gl_shape : List.length (f_axes f) = nrows /\ Forall (fun row => List.length row = ncols) (f_axes f);
  gl_cell : forall i j, (i < nrows)%nat -> (j < ncols)%nat -> exists a r c,
     fig_ax f i j = Some a /\ a_block a = mkblock r r c c /\
     (* its cell has unit height and width *)
     nth_error (f_heights f) r = Some (1#1)%Q /\ nth_error (f_widths f) c = Some (1#1)%Q /\
     (* the colour bar does not touch it and is on the requested side *)
     ~ in_block (f_cax f) r c /\ beside loc (f_cax f) r c /\
     (* everything but the first axes shares limits with it as asked *)
     a_sharex a = (negb (Nat.eqb i 0 && Nat.eqb j 0) && sx)%bool /\
     a_sharey a = (negb (Nat.eqb i 0 && Nat.eqb j 0) && sy)%bool;
  (* neighbours in the array are neighbours on the page, hence no two axes share a cell *)
  gl_next : forall i j i' j' a a', (i < nrows)%nat -> (j < ncols)%nat -> (i' < nrows)%nat -> (j' < ncols)%nat ->
     fig_ax f i j = Some a -> fig_ax f i' j' = Some a' ->
     (r_top (a_block a) + i' = r_top (a_block a') + i)%nat /\ (c_left (a_block a) + j' = c_left (a_block a') + j)%nat;
  (* the colour bar is one strip of relative thickness 0.075 spanning the whole grid on the other direction *)
  gl_cax : if (String.eqb loc "left" || String.eqb loc "right")%bool
     then r_top (f_cax f) = 0%nat /\ S (r_bot (f_cax f)) = List.length (f_heights f) /\ c_left (f_cax f) = c_right (f_cax f)
          /\ nth_error (f_widths f) (c_left (f_cax f)) = Some (75#1000)%Q
     else c_left (f_cax f) = 0%nat /\ S (c_right (f_cax f)) = List.length (f_widths f) /\ r_top (f_cax f) = r_bot (f_cax f)
          /\ nth_error (f_heights f) (r_top (f_cax f)) = Some (75#1000)%Q
}.

Lemma good_layout_grid loc nrows ncols sx sy hs ws cax i0 j0 :
  (forall i, (i < nrows)%nat -> nth_error hs (i0 + i) = Some (1#1)%Q) ->
  (forall j, (j < ncols)%nat -> nth_error ws (j0 + j) = Some (1#1)%Q) ->
  (forall i j, (i < nrows)%nat -> (j < ncols)%nat -> ~ in_block cax (i0 + i) (j0 + j) /\ beside loc cax (i0 + i) (j0 + j)) ->
  (if (String.eqb loc "left" || String.eqb loc "right")%bool
     then r_top cax = 0%nat /\ S (r_bot cax) = List.length hs /\ c_left cax = c_right cax
          /\ nth_error ws (c_left cax) = Some (75#1000)%Q
     else c_left cax = 0%nat /\ S (c_right cax) = List.length ws /\ r_top cax = r_bot cax
          /\ nth_error hs (r_top cax) = Some (75#1000)%Q) ->
  good_layout loc nrows ncols sx sy (mkfig hs ws cax (grid_axes i0 j0 nrows ncols sx sy)).
Proof.
  intros H1 H2 H3 H4. constructor; cbn [f_axes f_heights f_widths f_cax].
  - split; [unfold grid_axes; rewrite map_length, seq_length; reflexivity|].
    apply Forall_forall. unfold grid_axes. intros row Hr. apply in_map_iff in Hr as (r & <- & _).
    rewrite map_length, seq_length; reflexivity.
  - intros i j Hi Hj. unfold fig_ax; cbn [f_axes]. rewrite grid_axes_nth by assumption.
    do 3 eexists. split; [reflexivity|]. split; [reflexivity|].
    split; [apply H1, Hi|]. split; [apply H2, Hj|]. destruct (H3 i j Hi Hj). auto.
  - intros i j i' j' a a' Hi Hj Hi' Hj'. unfold fig_ax; cbn [f_axes]. rewrite !grid_axes_nth by assumption.
    intros [= <-] [= <-]. cbn. lia.
  - exact H4.
Qed.

(** The array handed back holds the axes of the figure, in order, with unit dimensions dropped. *)
Definition squeezed_of (nrows ncols : nat) (m : list (list axes)) (s : squeezed) : Prop :=
  match s with
  | One a => nrows = 1%nat /\ ncols = 1%nat /\ m = [[a]]
  | Vec l => (nrows = 1%nat \/ ncols = 1%nat) /\ ~ (nrows = 1%nat /\ ncols = 1%nat) /\ List.concat m = l
  | Mat m' => nrows <> 1%nat /\ ncols <> 1%nat /\ m' = m
  end.

Lemma squeeze_spec nrows ncols m :
  List.length m = nrows -> Forall (fun row => List.length row = ncols) m ->
  squeezed_of nrows ncols m (squeeze nrows ncols m).
Proof.
  intros H1 H2. unfold squeeze. destruct (Nat.eqb_spec nrows 1) as [E|E].
  - destruct m as [|row [|? ?]]; simpl in H1; try lia.
    inversion H2 as [|? ? L _]; subst. destruct (Nat.eqb_spec (List.length row) 1) as [F|F].
    + destruct row as [|a [|? ?]]; simpl in F; try lia. simpl; auto.
    + simpl. rewrite app_nil_r. repeat split; auto; lia.
  - destruct (Nat.eqb_spec ncols 1); simpl; repeat split; auto; lia.
Qed.

Lemma nth_error_repeat_app {A} (a : A) n t i : (i < n)%nat -> nth_error (repeat a n ++ t) i = Some a.
Proof. intros H. rewrite nth_error_app1 by (rewrite repeat_length; lia). apply nth_error_repeat, H. Qed.

Lemma rev_repeat {A} (a : A) n : rev (repeat a n) = repeat a n.
Proof.
  induction n as [|n IH]; simpl; [reflexivity|]. rewrite IH.
  clear. induction n as [|n IH]; simpl; [reflexivity|]. rewrite IH; reflexivity.
Qed.

(** C81: for every shape, position (in any letter case) and sharing, the call succeeds with a proper layout. *)
Theorem C81_layout lower nrows ncols cbar_loc sx sy :
  In (lower cbar_loc) ["top"; "bottom"; "left"; "right"]%string -> (1 <= nrows)%nat -> (1 <= ncols)%nat ->
  exists f s, build_ax_array_with_common_colorbar lower nrows ncols cbar_loc sx sy = Ok (f, s) /\
    good_layout (lower cbar_loc) nrows ncols sx sy f /\ squeezed_of nrows ncols (f_axes f) s.
Proof.
  intros Hloc Hr Hc. unfold build_ax_array_with_common_colorbar.
  set (loc := lower cbar_loc) in *. clearbody loc. cbv zeta.
  assert (G : forall hs ws cax i0 j0,
     good_layout loc nrows ncols sx sy (mkfig hs ws cax (grid_axes i0 j0 nrows ncols sx sy)) ->
     exists f s, Ok (mkfig hs ws cax (grid_axes i0 j0 nrows ncols sx sy),
                     squeeze nrows ncols (grid_axes i0 j0 nrows ncols sx sy)) = Ok (f, s) /\
       good_layout loc nrows ncols sx sy f /\ squeezed_of nrows ncols (f_axes f) s).
  { intros. do 2 eexists. split; [reflexivity|]. split; [assumption|].
    destruct (gl_shape _ _ _ _ _ _ H). apply squeeze_spec; assumption. }
  destruct Hloc as [<-|[<-|[<-|[<-|[]]]]];
    unfold loc_ok, heights_of, widths_of, cax_and_ranges; cbn [String.eqb Ascii.eqb Bool.eqb orb negb];
    rewrite ?rev_app_distr, ?rev_repeat, ?app_length, ?rev_length, ?repeat_length; cbn [List.length rev app];
    repeat match goal with
    | |- context [Nat.eqb ?a 0] => destruct (Nat.eqb_spec a 0) as [|_]; [lia|]
    end; cbn [orb]; unfold row_block, column_block.
  - (* top *)
    rewrite py_index_some by lia. cbn [bind].
    pose proof (build_axes_grid (2 + nrows) ncols 2 0 nrows ncols sx sy ltac:(lia) ltac:(lia)) as B.
    change (Z.of_nat 2) with 2 in B; change (Z.of_nat 0) with 0 in B. rewrite Z.add_0_r in B.
    change (S (S nrows)) with (2 + nrows)%nat. rewrite B. cbn [bind]. apply G. apply good_layout_grid.
    + intros i Hi. simpl. apply nth_error_repeat, Hi.
    + intros j Hj. simpl. apply nth_error_repeat, Hj.
    + intros i j Hi Hj. unfold in_block, beside; cbn. split; [lia|].
      repeat split; intros; try discriminate; lia.
    + cbn. rewrite repeat_length. repeat split; lia.
  - (* bottom *)
    assert (E : py_index (nrows + 2) (-1) = Ok (nrows + 1)%nat).
    { unfold py_index. cbv zeta. cbn [Z.ltb Z.compare].
      destruct (Z.leb_spec 0 (-1 + Z.of_nat (nrows + 2))); [|lia].
      destruct (Z.ltb_spec (-1 + Z.of_nat (nrows + 2)) (Z.of_nat (nrows + 2))); [|lia].
      simpl andb. cbv iota. f_equal. lia. }
    rewrite E. cbn [bind].
    pose proof (build_axes_grid (nrows + 2) ncols 0 0 nrows ncols sx sy ltac:(lia) ltac:(lia)) as B.
    change (Z.of_nat 0) with 0 in B. rewrite !Z.add_0_r in B. rewrite B. cbn [bind]. apply G.
    apply good_layout_grid.
    + intros i Hi. simpl. apply nth_error_repeat_app, Hi.
    + intros j Hj. simpl. apply nth_error_repeat, Hj.
    + intros i j Hi Hj. unfold in_block, beside; cbn. split; [lia|].
      repeat split; intros; try discriminate; lia.
    + cbn. rewrite repeat_length. repeat split; try lia.
      rewrite nth_error_app2 by (rewrite repeat_length; lia). rewrite repeat_length.
      replace (nrows + 1 - nrows)%nat with 1%nat by lia. reflexivity.
  - (* left *)
    rewrite py_index_some by lia. cbn [bind].
    pose proof (build_axes_grid nrows (2 + ncols) 0 2 nrows ncols sx sy ltac:(lia) ltac:(lia)) as B.
    change (Z.of_nat 2) with 2 in B; change (Z.of_nat 0) with 0 in B. rewrite Z.add_0_r in B.
    replace (ncols + 2)%nat with (2 + ncols)%nat by lia. rewrite B. cbn [bind]. apply G. apply good_layout_grid.
    + intros i Hi. simpl. apply nth_error_repeat, Hi.
    + intros j Hj. simpl. apply nth_error_repeat, Hj.
    + intros i j Hi Hj. unfold in_block, beside; cbn. split; [lia|].
      repeat split; intros; try discriminate; lia.
    + cbn. rewrite repeat_length. repeat split; lia.
  - (* right *)
    assert (E : py_index (ncols + 2) (-1) = Ok (ncols + 1)%nat).
    { unfold py_index. cbv zeta. cbn [Z.ltb Z.compare].
      destruct (Z.leb_spec 0 (-1 + Z.of_nat (ncols + 2))); [|lia].
      destruct (Z.ltb_spec (-1 + Z.of_nat (ncols + 2)) (Z.of_nat (ncols + 2))); [|lia].
      simpl andb. cbv iota. f_equal. lia. }
    rewrite E. cbn [bind].
    pose proof (build_axes_grid nrows (ncols + 2) 0 0 nrows ncols sx sy ltac:(lia) ltac:(lia)) as B.
    change (Z.of_nat 0) with 0 in B. rewrite !Z.add_0_r in B. rewrite B. cbn [bind]. apply G.
    apply good_layout_grid.
    + intros i Hi. simpl. apply nth_error_repeat, Hi.
    + intros j Hj. simpl. apply nth_error_repeat_app, Hj.
    + intros i j Hi Hj. unfold in_block, beside; cbn. split; [lia|].
      repeat split; intros; try discriminate; lia.
    + cbn. rewrite repeat_length. repeat split; try lia.
      rewrite nth_error_app2 by (rewrite repeat_length; lia). rewrite repeat_length.
      replace (ncols + 1 - ncols)%nat with 1%nat by lia. reflexivity.
Qed.

(** Any other position is refused. *)
Theorem C81_bad_position lower nrows ncols cbar_loc sx sy :
  ~ In (lower cbar_loc) ["top"; "bottom"; "left"; "right"]%string ->
  build_ax_array_with_common_colorbar lower nrows ncols cbar_loc sx sy = Err ValueError.
Proof.
  intros H. unfold build_ax_array_with_common_colorbar. cbv zeta. unfold loc_ok.
  repeat match goal with |- context [String.eqb ?a ?b] =>
    destruct (String.eqb_spec a b); [exfalso; apply H; simpl; intuition congruence|] end.
  reflexivity.
Qed.

Example C81_witness : exists f s,
  build_ax_array_with_common_colorbar (fun s => s) 1 2 "bottom" true false = Ok (f, Vec s) /\
  f_cax f = mkblock 2 2 0 1 /\ map a_block s = [mkblock 0 0 0 0; mkblock 0 0 1 1] /\ map a_sharex s = [false; true].
Proof. do 2 eexists. repeat split. Qed.

(* ------------------------------------------------------------ C82 *)

(** [z] is drawn by the first handle that carries the label [l], reading the axes in order. *)
Definition first_handle (axs : list (list (handle * string))) (l : string) (z : Z) : Prop :=
  exists pre h post, List.concat axs = (pre ++ (h, l) :: post)%list /\ ~ In l (map snd pre) /\ z = plain h.

Definition collect_step (acc : list (string * Z)) (hl : handle * string) : list (string * Z) :=
  if mem_str (snd hl) (map fst acc) then acc else (acc ++ [(snd hl, plain (fst hl))])%list.

Lemma collect_inv todo : forall seen acc,
  NoDup (map fst acc) ->
  (forall l, In l (map fst acc) <-> In l (map snd seen)) ->
  (forall l z, In (l, z) acc -> exists pre h post, seen = (pre ++ (h, l) :: post)%list /\ ~ In l (map snd pre) /\ z = plain h) ->
  let out := fold_left collect_step todo acc in
  NoDup (map fst out) /\ (forall l, In l (map fst out) <-> In l (map snd (seen ++ todo))) /\
  (forall l z, In (l, z) out -> exists pre h post, (seen ++ todo = pre ++ (h, l) :: post)%list /\ ~ In l (map snd pre) /\ z = plain h).
Proof.
  induction todo as [|[h l] todo IH]; intros seen acc N M F; cbv zeta; simpl fold_left.
  - rewrite app_nil_r. auto.
  - assert (E : (seen ++ (h, l) :: todo = (seen ++ [(h, l)]) ++ todo)%list) by (rewrite <- app_assoc; reflexivity).
    rewrite E. apply IH; unfold collect_step; cbn [fst snd]; destruct (mem_str l (map fst acc)) eqn:B.
    + exact N.
    + rewrite map_app. cbn [map fst]. apply (Permutation_NoDup (Permutation_app_comm [l] (map fst acc))).
      constructor; [|exact N]. rewrite <- mem_str_In, B. discriminate.
    + intros k. rewrite map_app, in_app_iff, M. simpl. split; [auto|]. intros [?|[<-|[]]]; [assumption|].
      apply M, mem_str_In, B.
    + intros k. rewrite !map_app, !in_app_iff, M. simpl. tauto.
    + intros k z Hk. destruct (F k z Hk) as (pre & h' & post & -> & H1 & H2).
      exists pre, h', (post ++ [(h, l)])%list. rewrite <- app_assoc. auto.
    + intros k z Hk. apply in_app_iff in Hk as [Hk|[[= <- <-]|[]]].
      * destruct (F k z Hk) as (pre & h' & post & -> & H1 & H2).
        exists pre, h', (post ++ [(h, l)])%list. rewrite <- app_assoc. auto.
      * exists seen, h, []. split; [reflexivity|]. split; [|reflexivity].
        rewrite <- M, <- mem_str_In, B. discriminate.
Qed.

(** C82: the legend goes on the requested axes; its labels are in strictly increasing order (so each appears
    once), they are exactly the labels present on some axes, and each is drawn by the first handle that
    carried it (the data line of an error bar). *)
Theorem C82_joint_legend axs idx k entries :
  joint_legend axs idx = Ok (k, entries) ->
  (k < List.length axs)%nat /\ (Z.of_nat k = idx \/ idx < 0 /\ Z.of_nat k = idx + Z.of_nat (List.length axs)) /\
  StronglySorted (fun a b => str_leb a b = true /\ a <> b) (map fst entries) /\
  (forall l, In l (map fst entries) <-> exists ax h, In ax axs /\ In (h, l) ax) /\
  (forall l z, In (l, z) entries -> first_handle axs l z).
Proof.
  unfold joint_legend. intros H. apply bind_ok in H as (k' & Hk & [= <- <-]).
  destruct (py_index_ok _ _ _ Hk) as [H1 H2]. split; [exact H1|]. split; [exact H2|].
  unfold joint_legend_entries, collect.
  change (fun acc hl => if mem_str (snd hl) (map fst acc) then acc else (acc ++ [(snd hl, plain (fst hl))])%list)
    with collect_step.
  destruct (collect_inv (List.concat axs) [] []) as (N & M & F);
    [constructor|simpl; tauto|simpl; tauto|]. cbn [app] in N, M, F.
  set (c := fold_left collect_step (List.concat axs) []) in *. clearbody c.
  set (leb := fun a b : string * Z => str_leb (fst a) (fst b)).
  assert (P : Permutation (sort_by leb c) c) by apply sort_by_perm.
  split; [|split].
  - assert (S : StronglySorted (leP leb) (sort_by leb c)).
    { apply sort_by_sorted; unfold leb; intros; [apply str_leb_total|eapply str_leb_trans; eassumption]. }
    assert (N' : NoDup (map fst (sort_by leb c))).
    { eapply Permutation_NoDup; [apply Permutation_map, Permutation_sym, P|exact N]. }
    revert S N'. generalize (sort_by leb c). clear. induction l as [|x l IH]; intros S N; simpl; [constructor|].
    inversion S as [|? ? S1 S2]; subst. inversion N as [|? ? N1 N2]; subst.
    constructor; [apply IH; assumption|]. apply Forall_forall. intros s Hs.
    apply in_map_iff in Hs as (y & <- & Hy). rewrite Forall_forall in S2. split; [apply (S2 y Hy)|].
    intros E. apply N1. rewrite E. apply in_map, Hy.
  - intros l. transitivity (In l (map fst c)).
    + split; apply Permutation_in; [|apply Permutation_sym]; apply Permutation_map, P.
    + rewrite M. rewrite in_map_iff. split.
      * intros ([h l'] & E & Hin). simpl in E; subst l'. apply in_concat in Hin as (ax & ? & ?). eauto.
      * intros (ax & h & ? & ?). exists (h, l). split; [reflexivity|]. apply in_concat; eauto.
  - intros l z Hin. apply (Permutation_in _ P) in Hin. exact (F l z Hin).
Qed.

(** The call only fails if there is no axes at the requested index. *)
Theorem C82_succeeds axs idx :
  (- Z.of_nat (List.length axs) <= idx < Z.of_nat (List.length axs)) ->
  exists k entries, joint_legend axs idx = Ok (k, entries).
Proof.
  intros H. unfold joint_legend, py_index. cbv zeta.
  destruct (Z.ltb_spec idx 0) as [L|L].
  - destruct (Z.leb_spec 0 (idx + Z.of_nat (List.length axs))); [|lia].
    destruct (Z.ltb_spec (idx + Z.of_nat (List.length axs)) (Z.of_nat (List.length axs))); [|lia]. simpl. eauto.
  - destruct (Z.leb_spec 0 idx); [|lia]. destruct (Z.ltb_spec idx (Z.of_nat (List.length axs))); [|lia]. simpl. eauto.
Qed.

Example C82_witness :
  joint_legend [[(Artist 1, "b"%string); (Errorbar 2 [7], "a"%string)]; [(Artist 3, "b"%string); (Artist 4, "c"%string)]] (-1)
  = Ok (1%nat, [("a", 2); ("b", 1); ("c", 4)]%string).
Proof. reflexivity. Qed.

(* ------------------------------------------------------------ C83 *)
Section C83.
Open Scope R_scope.

Definition valid_value (x : XR) : R := match x with Fin r => r | _ => 0 end.
Definition valid_one (x : XR) : R := match x with Fin _ => 1 | _ => 0 end.

(** Weighted sum, and total weight, of the valid data under the weights [row]. *)
Definition weighted_sum (row : list R) (data : list XR) : R :=
  Rsum (map (fun wx => fst wx * valid_value (snd wx)) (combine row data)).
Definition weight_sum (row : list R) (data : list XR) : R :=
  Rsum (map (fun wx => fst wx * valid_one (snd wx)) (combine row data)).

(** Smoothing weights: non-negative, one row per pixel, each pixel sees itself. *)
Record smoothing (n : nat) (K : list (list R)) : Prop := {
  sm_rows : List.length K = n;
  sm_len : forall row, In row K -> List.length row = n;
  sm_nonneg : forall row w, In row K -> In w row -> 0 <= w;
  sm_diag : forall i row, nth_error K i = Some row -> exists w, nth_error row i = Some w /\ 0 < w
}.
Definition data_ok (data : list XR) : Prop := forall x, In x data -> x = NaN \/ exists r, x = Fin r.

Lemma row_filter (row : list R) data (f : XR -> XR) (g : XR -> R) :
  (forall x, In x data -> f x = Fin (g x)) ->
  sum_strict (map (fun wx => amul (fst wx) (snd wx)) (combine (map Fin row) (map f data)))
  = Fin (Rsum (map (fun wx => fst wx * g (snd wx)) (combine row data))).
Proof.
  intros H.
  rewrite <- sum_strict_fin. f_equal. rewrite map_map.
  revert row; induction data as [|x data IH]; intros [|w row]; simpl; try reflexivity.
  rewrite (H x) by (left; reflexivity). rewrite IH by (intros y Hy; apply H; right; exact Hy). reflexivity.
Qed.

Lemma fill_fin data : data_ok data -> forall x, In x data ->
  (if aisnan x then (a0 : XR) else x) = Fin (valid_value x).
Proof. intros H x Hx. destruct (H x Hx) as [->|[r ->]]; [apply fin_a0|reflexivity]. Qed.
Lemma weight_fin data : data_ok data -> forall x, In x data ->
  (if aisnan x then (a0 : XR) else a1) = Fin (valid_one x).
Proof. intros H x Hx. destruct (H x Hx) as [->|[r ->]]; [apply fin_a0|apply fin_a1]. Qed.

Lemma filter_nth K data i row x : data_ok data ->
  nth_error K i = Some row -> nth_error data i = Some x ->
  nth_error (nan_gaussian_filter (map (map Fin) K) data) i
  = Some (if aisnan x then NaN else
          if Rltb 0 (weight_sum row data) then Fin (weighted_sum row data / weight_sum row data) else NaN).
Proof.
  intros Hd HK Hx. unfold nan_gaussian_filter, linear_filter. cbv zeta. rewrite !map_map.
  set (F := fun r : list R => sum_strict (map (fun wx => amul (fst wx) (snd wx))
         (combine (map Fin r) (map (fun x : XR => if aisnan x then a0 else x) data)))).
  set (G := fun r : list R => sum_strict (map (fun wx => amul (fst wx) (snd wx))
         (combine (map Fin r) (map (fun x : XR => if aisnan x then a0 else a1) data)))).
  assert (N : forall (A B : Type) (la : list A) (lb : list B) a b j, nth_error la j = Some a -> nth_error lb j = Some b ->
     nth_error (combine la lb) j = Some (a, b)).
  { clear. intros A B la. induction la as [|a' la IH]; intros [|b' lb] a b [|j]; simpl; try discriminate.
    - intros [= ->] [= ->]; reflexivity.
    - intros H1 H2. apply IH; assumption. }
  erewrite map_nth_error.
  2:{ apply N; [apply map_nth_error, Hx|]. apply map_nth_error. apply N; apply map_nth_error, HK. }
  cbn [fst snd]. f_equal. destruct (aisnan x); [reflexivity|].
  assert (EF : F row = Fin (weighted_sum row data)) by (apply row_filter, fill_fin, Hd).
  assert (EG : G row = Fin (weight_sum row data)) by (apply row_filter, weight_fin, Hd).
  change (sum_strict (map _ (combine (map Fin row) (map (fun x0 : XR => if aisnan x0 then a0 else x0) data)))) with (F row).
  change (sum_strict (map _ (combine (map Fin row) (map (fun x0 : XR => if aisnan x0 then a0 else a1) data)))) with (G row).
  rewrite EF, EG. unfold agtb. rewrite fin_a0, fin_ltb.
  destruct (Rltb 0 (weight_sum row data)) eqn:E; [|reflexivity].
  apply Rltb_true in E. apply fin_div. lra.
Qed.

Lemma weight_pos n K data i row r : smoothing n K -> List.length data = n ->
  nth_error K i = Some row -> nth_error data i = Some (Fin r) -> 0 < weight_sum row data.
Proof.
  intros S L HK Hx. destruct (sm_diag _ _ S i row HK) as (w & Hw & Pw).
  assert (NN : forall v, In v row -> 0 <= v) by (intros v; apply (sm_nonneg _ _ S), (nth_error_In _ _ HK)).
  clear S L HK K. unfold weight_sum. revert data i Hx Hw NN.
  induction row as [|v row IH]; intros data [|i] Hx Hw NN; simpl in Hw; try discriminate.
  - destruct data as [|x data]; [discriminate|]. simpl in Hx. injection Hx as ->. injection Hw as ->. simpl.
    assert (0 <= Rsum (map (fun wx => fst wx * valid_one (snd wx)) (combine row data))).
    { apply Rsum_nonneg. intros y Hy. apply in_map_iff in Hy as ([w' x'] & <- & Hin). simpl.
      apply in_combine_l in Hin. apply Rmult_le_pos; [apply NN; right; exact Hin|]. destruct x'; simpl; lra. }
    lra.
  - destruct data as [|x data]; [discriminate|]. simpl in Hx. simpl.
    assert (0 < Rsum (map (fun wx => fst wx * valid_one (snd wx)) (combine row data))).
    { apply (IH data i Hx Hw). intros u Hu; apply NN; right; exact Hu. }
    assert (0 <= v * valid_one x).
    { apply Rmult_le_pos; [apply NN; left; reflexivity|]. destruct x; simpl; lra. }
    lra.
Qed.

(** C83: with any smoothing weights and any mixture of valid and missing data, the output has the input's
    length; it is NaN exactly where the input is; elsewhere it is the weighted mean of the valid data alone,
    and so lies in every interval containing the valid data (in particular constants are preserved). *)
Theorem C83_nan_smoothing n K data : smoothing n K -> List.length data = n -> data_ok data ->
  let out := nan_gaussian_filter (map (map Fin) K) data in
  List.length out = n /\
  forall i row x, nth_error K i = Some row -> nth_error data i = Some x ->
    (x = NaN -> nth_error out i = Some NaN) /\
    (forall r, x = Fin r -> exists y, nth_error out i = Some (Fin y) /\
       y * weight_sum row data = weighted_sum row data /\ 0 < weight_sum row data /\
       forall lo hi, (forall v, In (Fin v) data -> lo <= v <= hi) -> lo <= y <= hi).
Proof.
  intros S L D. cbv zeta. split.
  - unfold nan_gaussian_filter, linear_filter. cbv zeta. repeat rewrite ?map_length, ?combine_length.
    rewrite (sm_rows _ _ S), L. lia.
  - intros i row x HK Hx. pose proof (filter_nth K data i row x D HK Hx) as E. split.
    + intros ->. exact E.
    + intros r ->. rewrite fin_isnan in E.
      pose proof (weight_pos n K data i row r S L HK Hx) as P.
      rewrite (proj2 (Rltb_true _ _) P) in E.
      exists (weighted_sum row data / weight_sum row data). split; [exact E|].
      split; [field; lra|]. split; [exact P|]. intros lo hi B.
      assert (NN : forall v, In v row -> 0 <= v) by (intros v; apply (sm_nonneg _ _ S), (nth_error_In _ _ HK)).
      assert (Q : lo * weight_sum row data <= weighted_sum row data <= hi * weight_sum row data).
      { unfold weighted_sum, weight_sum. rewrite <- !Rsum_map_scal.
        split; apply Rsum_le; intros [w z] Hin; simpl;
          pose proof (in_combine_l _ _ _ _ Hin) as Hw; pose proof (in_combine_r _ _ _ _ Hin) as Hz;
          specialize (NN w Hw); (destruct (D z Hz) as [->|[v ->]]; simpl; [lra|]);
          specialize (B v Hz); nra. }
      split; [apply Rmult_le_reg_r with (1 := P)|apply Rmult_le_reg_r with (1 := P)];
        unfold Rdiv; rewrite Rmult_assoc, Rinv_l, Rmult_1_r by lra; tauto.
Qed.

Example C83_witness :
  smoothing 3 [[/2; /4; /4]; [/4; /2; /4]; [/4; /4; /2]] /\ data_ok [Fin 1; NaN; Fin 3] /\
  nth_error (nan_gaussian_filter (map (map Fin) [[/2; /4; /4]; [/4; /2; /4]; [/4; /4; /2]]) [Fin 1; NaN; Fin 3]) 0
  = Some (Fin (5 / 3)).
Proof.
  assert (S : smoothing 3 [[/2; /4; /4]; [/4; /2; /4]; [/4; /4; /2]]).
  { constructor.
    - reflexivity.
    - intros row [<-|[<-|[<-|[]]]]; reflexivity.
    - intros row w [<-|[<-|[<-|[]]]] [<-|[<-|[<-|[]]]]; lra.
    - intros [|[|[|[|i]]]] row H; simpl in H; try discriminate; injection H as <-; eexists; (split; [reflexivity|lra]). }
  assert (D : data_ok [Fin 1; NaN; Fin 3]).
  { intros x [<-|[<-|[<-|[]]]]; eauto. }
  split; [exact S|]. split; [exact D|].
  rewrite (filter_nth [[/2; /4; /4]; [/4; /2; /4]; [/4; /4; /2]] _ 0 [/2; /4; /4] (Fin 1) D eq_refl eq_refl). rewrite fin_isnan.
  unfold weight_sum, weighted_sum, Rsum; simpl.
  rewrite (proj2 (Rltb_true _ _)) by lra. f_equal. f_equal. field.
Qed.
End C83.
