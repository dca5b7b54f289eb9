(** Histograms and binned aggregates: what a user can rely on. *)
From Coq Require Import Reals List Bool Arith ZArith Lra Lia Permutation Sorted String Psatz.
From Flocq Require Import Core.Raux Core.Generic_fmt Core.Round_NE.
From Verif Require Import Py Num Sort Activity ActivityThms FitFuncsThms Hist.
Import ListNotations.
Open Scope R_scope.

(* ------------------------------------------------------------------ specification *)
(** bin edges in non-decreasing / increasing order *)
Definition ordered (e : list R) : Prop := forall i j, (i <= j < List.length e)%nat -> nth i e 0 <= nth j e 0.
Definition strictly (e : list R) : Prop := forall i j, (i < j < List.length e)%nat -> nth i e 0 < nth j e 0.
Definition nbin (e : list R) : nat := (List.length e - 1)%nat.
Definition wid (e : list R) (i : nat) : R := nth (S i) e 0 - nth i e 0.
(** lo < v <= hi; NaN and infinities are in no finite interval *)
Definition inb (lo hi : R) (v : XR) : bool := match v with Fin x => Rltb lo x && Rleb x hi | _ => false end.
(** bin number i; the whole range *)
Definition bin (e : list R) (i : nat) (v : XR) : bool := inb (nth i e 0) (nth (S i) e 0) v.
Definition range (e : list R) (v : XR) : bool := inb (nth 0 e 0) (nth (nbin e) e 0) v.
Definition tally {X} (p : X -> bool) (l : list X) : nat := List.length (filter p l).
(** the coordinate along an axis *)
Definition coord (lg : bool) (v : XR) : XR := if lg then log10 (aabs v) else v.
Definition inlim (lim : option XR * option XR) (x : XR) : Prop :=
  (forall a, fst lim = Some a -> aleb a x = true) /\ (forall b, snd lim = Some b -> aleb x b = true).
Definition nolim : option XR * option XR := (None, None).

(* ------------------------------------------------------------------ bins *)
Lemma strictly_ordered e : strictly e -> ordered e.
Proof.
  intros S i j H. destruct (Nat.eq_dec i j) as [->|N]; [apply Rle_refl|]. apply Rlt_le, S. lia.
Qed.
Lemma inb_true lo hi v : inb lo hi v = true <-> exists x, v = Fin x /\ lo < x <= hi.
Proof.
  unfold inb. destruct v as [r| | |]; split; intro H; try discriminate; try (destruct H as [? [? ?]]; discriminate).
  - apply andb_prop in H. destruct H as [H1 H2]. exists r. rewrite Rltb_true in H1. rewrite Rleb_true in H2. auto.
  - destruct H as [y [E [H1 H2]]]. injection E as <-. apply andb_true_intro. rewrite Rltb_true, Rleb_true. auto.
Qed.
Lemma in_bin_fin a b v : in_bin v (Fin a, Fin b) = inb a b v.
Proof.
  unfold in_bin, inb. cbn [fst snd]. destruct v; try reflexivity.
  rewrite fin_ltb, fin_leb. reflexivity.
Qed.
Lemma intervals_nth (e : list R) :
  intervals (map Fin e) = map (fun i => (Fin (nth i e 0), Fin (nth (S i) e 0))) (seq 0 (nbin e)).
Proof.
  unfold intervals, nbin. induction e as [|a e IH]; [reflexivity|].
  destruct e as [|b e]; [reflexivity|].
  replace (List.length (a :: b :: e) - 1)%nat with (S (List.length e)) by (cbn; lia).
  replace (List.length (b :: e) - 1)%nat with (List.length e) in IH by (cbn; lia).
  transitivity ((Fin a, Fin b) :: combine (removelast (map Fin (b :: e))) (tl (map Fin (b :: e)))); [reflexivity|].
  rewrite IH. cbn [seq map]. rewrite <- seq_shift, map_map. reflexivity.
Qed.
Lemma find_bin_find (f : nat -> XR * XR) v n : forall k,
  find_bin k (map f (seq k n)) v = find (fun i => in_bin v (f i)) (seq k n).
Proof.
  induction n as [|n IH]; intro k; [reflexivity|]. cbn [seq map find_bin find]. rewrite IH. reflexivity.
Qed.
Lemma find_ext {X} (p q : X -> bool) l : (forall x, p x = q x) -> find p l = find q l.
Proof. intro E. induction l as [|x l IH]; [reflexivity|]. cbn. rewrite E, IH. reflexivity. Qed.
Lemma cut_find e v : cut (map Fin e) v = find (fun i => bin e i v) (seq 0 (nbin e)).
Proof.
  unfold cut. rewrite intervals_nth, find_bin_find. apply find_ext. intro i. apply in_bin_fin.
Qed.
Lemma bin_unique e i j v : ordered e -> (i < nbin e)%nat -> (j < nbin e)%nat -> bin e i v = true -> bin e j v = true -> i = j.
Proof.
  intros O Hi Hj Bi Bj. unfold nbin in *. unfold bin in *. rewrite inb_true in Bi, Bj.
  destruct Bi as [x [-> Hx]]. destruct Bj as [y [E Hy]]. injection E as <-.
  destruct (lt_eq_lt_dec i j) as [[L|E]|L]; [exfalso|assumption|exfalso].
  - assert (nth (S i) e 0 <= nth j e 0) by (apply O; lia). lra.
  - assert (nth (S j) e 0 <= nth i e 0) by (apply O; lia). lra.
Qed.
Lemma cut_some e v i : ordered e -> cut (map Fin e) v = Some i <-> (i < nbin e)%nat /\ bin e i v = true.
Proof.
  intro O. rewrite cut_find. split; intro H.
  - apply find_some in H. destruct H as [H1 H2]. apply in_seq in H1. split; [lia|assumption].
  - destruct H as [L B]. destruct (find (fun i => bin e i v) (seq 0 (nbin e))) as [j|] eqn:F.
    + apply find_some in F. destruct F as [F1 F2]. apply in_seq in F1. f_equal.
      apply (bin_unique e j i v); auto. lia.
    + pose proof (find_none _ _ F i) as N. rewrite in_seq in N. rewrite N in B by lia. discriminate.
Qed.
Lemma in_some_bin e x : forall n, (n <= nbin e)%nat -> nth 0 e 0 < x <= nth n e 0 -> exists i, (i < n)%nat /\ nth i e 0 < x <= nth (S i) e 0.
Proof.
  induction n as [|n IH]; intros L H; [lra|].
  destruct (Rlt_dec (nth n e 0) x) as [G|G].
  - exists n. split; [lia|]. lra.
  - destruct IH as [i [Hi H2]]; [lia|lra|]. exists i. split; [lia|assumption].
Qed.
Lemma cut_none e v : ordered e -> cut (map Fin e) v = None <-> range e v = false.
Proof.
  intro O. split; intro H.
  - destruct (range e v) eqn:B; [|reflexivity]. exfalso.
    unfold range in B. rewrite inb_true in B. destruct B as [x [-> Hx]].
    destruct (in_some_bin e x (nbin e)) as [i [Hi Hb]]; [lia|assumption|].
    assert (C : cut (map Fin e) (Fin x) = Some i).
    { apply cut_some; [assumption|]. split; [assumption|]. unfold bin. rewrite inb_true. eauto. }
    congruence.
  - destruct (cut (map Fin e) v) as [i|] eqn:C; [|reflexivity]. exfalso.
    apply cut_some in C; [|assumption]. destruct C as [L B]. unfold bin in B. rewrite inb_true in B.
    destruct B as [x [-> Hx]].
    assert (R : range e (Fin x) = true); [|congruence].
    unfold range. rewrite inb_true. exists x. split; [reflexivity|]. unfold nbin in *.
    assert (nth 0 e 0 <= nth i e 0) by (apply O; lia).
    assert (nth (S i) e 0 <= nth (List.length e - 1) e 0) by (apply O; lia). lra.
Qed.

(** C71: a value has at most one bin, it is the right-closed one that holds it; exactly the finite values in
    (first edge, last edge] have one. *)
Theorem C71_each_value_in_one_bin : forall (e : list R) (v : XR), ordered e ->
  (forall i, cut (map Fin e) v = Some i <->
     (S i < List.length e)%nat /\ exists x, v = Fin x /\ nth i e 0 < x <= nth (S i) e 0)
  /\ (cut (map Fin e) v = None <-> ~ exists x, v = Fin x /\ nth 0 e 0 < x <= nth (List.length e - 1) e 0).
Proof.
  intros e v O. split.
  - intro i. rewrite cut_some by assumption. unfold nbin, bin. rewrite inb_true. split; intros [L H]; (split; [lia|assumption]).
  - rewrite cut_none by assumption. unfold range, nbin. split; intro H.
    + intro X. rewrite <- inb_true in X. congruence.
    + destruct (inb (nth 0 e 0) (nth (List.length e - 1) e 0) v) eqn:B; [|reflexivity]. rewrite inb_true in B. contradiction.
Qed.
Theorem C71_witness : ordered [0; 1; 3] /\ cut (map Fin [0; 1; 3]) (Fin 1) = Some 0%nat /\ cut (map Fin [0; 1; 3]) (Fin 0) = None.
Proof.
  assert (O : ordered [0; 1; 3]).
  { intros i j H. cbn [List.length] in H.
    destruct j as [|[|[|j]]]; [| | |lia]; destruct i as [|[|[|i]]]; try lia; cbn; lra. }
  split; [assumption|]. split.
  - apply C71_each_value_in_one_bin; [assumption|]. split; [cbn; lia|]. exists 1. cbn. split; [reflexivity|lra].
  - apply C71_each_value_in_one_bin; [assumption|]. intros [x [E H]]. injection E as <-. cbn in H. lra.
Qed.

(* ------------------------------------------------------------------ tables *)
Lemma sum_skip_acc l : forall a, fold_left (fun acc x => if aisnan x then acc else aadd acc x) (map cell l) (Fin a) = Fin (a + Rsum (present l)).
Proof.
  induction l as [|[x|] l IH]; intro a; cbn [map fold_left present flat_map app].
  - f_equal. cbn. lra.
  - cbn [cell]. rewrite fin_isnan, fin_add, IH. cbn [Rsum fold_right]. f_equal. unfold present. cbn. lra.
  - cbn [cell]. change (aisnan NaN) with true. cbn iota. rewrite IH. reflexivity.
Qed.
Lemma sum_skip_cells l : sum_skip (map cell l) = Fin (Rsum (present l)).
Proof. unfold sum_skip. rewrite fin_a0, sum_skip_acc. f_equal. lra. Qed.
Lemma present_app a b : present (a ++ b) = present a ++ present b.
Proof. unfold present. apply flat_map_app. Qed.
Lemma cell_inj a b : cell a = cell b -> a = b.
Proof. destruct a, b; cbn; intro E; try discriminate; [injection E as <-|]; reflexivity. Qed.
Lemma notnan_cell o : notnan (cell o) = match o with Some _ => true | None => false end.
Proof. destruct o; reflexivity. Qed.

Section Tab.
  Variable K : Type.
  Variable keqb : K -> K -> bool.
  Hypothesis keqb_spec : forall a b, keqb a b = true <-> a = b.
  Definition table (p : K -> bool) (H : K -> option R) (keys : list K) : list (K * XR) :=
    map (fun k => (k, cell (H k))) (filter p keys).
  Definition supported (p : K -> bool) (H : K -> option R) : Prop := forall k, p k = false -> H k = None.
  Lemma at_table p H keys k : supported p H -> In k keys -> at_key K keqb (table p H keys) k = cell (H k).
  Proof.
    intros S. unfold table. induction keys as [|q keys IH]; [intros []|]. intro I. cbn [filter].
    destruct (p q) eqn:P.
    - cbn [map at_key]. destruct (keqb q k) eqn:E.
      + apply keqb_spec in E. subst. reflexivity.
      + apply IH. destruct I as [->|I]; [|assumption]. exfalso.
        assert (keqb k k = true) by (apply keqb_spec; reflexivity). congruence.
    - destruct I as [->|I]; [|apply IH; assumption].
      rewrite (S _ P). clear IH. induction keys as [|q keys IH]; [reflexivity|]. cbn [filter].
      destruct (p q) eqn:P2; [|assumption]. cbn [map at_key]. destruct (keqb q k) eqn:E; [|assumption].
      apply keqb_spec in E. subst. congruence.
  Qed.
  Lemma present_filter p H keys : supported p H -> present (map H (filter p keys)) = present (map H keys).
  Proof.
    intro S. induction keys as [|k keys IH]; [reflexivity|]. cbn [filter map].
    change (present (H k :: map H keys)) with ((match H k with Some x => [x] | None => [] end) ++ present (map H keys))%list.
    destruct (p k) eqn:P.
    - cbn [map]. change (present (H k :: map H (filter p keys))) with ((match H k with Some x => [x] | None => [] end) ++ present (map H (filter p keys)))%list.
      rewrite IH. reflexivity.
    - rewrite (S _ P). exact IH.
  Qed.
  Lemma values_table p H keys : values K (table p H keys) = map cell (map H (filter p keys)).
  Proof. unfold values, table. rewrite !map_map. reflexivity. Qed.
  Lemma sum_table p H keys : supported p H -> sum_skip (values K (table p H keys)) = Fin (Rsum (present (map H keys))).
  Proof. intro S. rewrite values_table, sum_skip_cells, present_filter by assumption. reflexivity. Qed.
  Lemma divide_table p H keys g (d : K -> R) :
    (forall k c, In k keys -> p k = true -> H k = Some c -> g k = Fin (d k) /\ d k <> 0) ->
    divide_by K g (table p H keys) = table p (fun k => option_map (fun c => c / d k) (H k)) keys.
  Proof.
    intro G. unfold divide_by, table. rewrite map_map. apply map_ext_in. intros k I. cbn [fst snd]. f_equal.
    apply filter_In in I. destruct I as [I P]. destruct (H k) as [c|] eqn:E.
    - destruct (G k c I P E) as [-> N]. cbn [cell option_map]. apply fin_div. assumption.
    - cbn [cell option_map]. apply nan_div_l.
  Qed.
  Lemma supported_map p H f : supported p H -> supported p (fun k => option_map (f k) (H k)).
  Proof. intros S k P. rewrite (S k P). reflexivity. Qed.
  Lemma mask_table p H keys (m : K -> bool) :
    map (fun kv : K * XR => (fst kv, if m (fst kv) then snd kv else NaN)) (table p H keys)
    = table p (fun k => if m k then H k else None) keys.
  Proof.
    unfold table. rewrite map_map. apply map_ext. intro k. cbn [fst snd]. f_equal. destruct (m k); reflexivity.
  Qed.
  Lemma sub_table p H keys (q : K -> bool) :
    map snd (filter (fun kv : K * XR => q (fst kv)) (table p H keys)) = map cell (map H (filter p (filter q keys))).
  Proof.
    unfold table. induction keys as [|k keys IH]; [reflexivity|]. cbn [filter].
    destruct (p k) eqn:P; destruct (q k) eqn:Q; cbn [map filter]; rewrite ?P; cbn [filter map fst snd]; rewrite ?Q; cbn [map]; rewrite ?IH; reflexivity.
  Qed.
  Lemma agg_runner_table keys clim (rows : list (option K * XR)) :
    (forall r, In r rows -> snd r = Fin 1) ->
    let n k := List.length (members K keqb rows k) in
    exists H, agg_runner K keqb keys clim FDefault rows = table (is_observed K keqb rows) H keys
      /\ agg_runner K keqb keys clim FCount rows = table (is_observed K keqb rows) H keys
      /\ supported (is_observed K keqb rows) H
      /\ (forall k, H k = if Nat.eqb (n k) 0 then None else if within clim (Fin (INR (n k))) then Some (INR (n k)) else None)
      /\ (forall k, is_observed K keqb rows k = negb (Nat.eqb (n k) 0)).
  Proof.
    intros Ones n.
    assert (Obs : forall k, is_observed K keqb rows k = negb (Nat.eqb (n k) 0)).
    { intro k. unfold n, members, is_observed. rewrite map_length. clear. induction rows as [|r rows IH]; [reflexivity|].
      cbn [existsb filter]. destruct (match fst r with Some q => keqb q k | None => false end); [reflexivity|exact IH]. }
    assert (Mem : forall k x, In x (members K keqb rows k) -> x = Fin 1).
    { intros k x I. unfold members in I. apply in_map_iff in I. destruct I as [r [<- I]]. apply filter_In in I. apply Ones, I. }
    assert (Cnt : forall k, count (members K keqb rows k) = Fin (INR (n k))).
    { intro k. unfold count, ofnat, n. rewrite fin_ofZ, <- INR_IZR_INZ. do 2 f_equal. f_equal.
      specialize (Mem k). induction (members K keqb rows k) as [|x l IH]; [reflexivity|].
      cbn [filter]. rewrite (Mem x) by (left; reflexivity). change (notnan (Fin 1)) with true. cbn iota. f_equal.
      apply IH. intros y I. apply Mem. right. exact I. }
    set (H := fun k => if Nat.eqb (n k) 0 then None else if within clim (Fin (INR (n k))) then Some (INR (n k)) else None).
    assert (FC : agg_runner K keqb keys clim FCount rows = table (is_observed K keqb rows) H keys).
    { unfold agg_runner, group_agg, table. rewrite map_map. apply map_ext_in. intros k I. cbn [fst snd the_fcn]. f_equal.
      rewrite Cnt. apply filter_In in I. destruct I as [_ I]. rewrite Obs in I. unfold H.
      destruct (Nat.eqb (n k) 0); [discriminate|]. destruct (within clim (Fin (INR (n k)))); reflexivity. }
    exists H. split; [|split; [exact FC|split; [|split; [reflexivity|exact Obs]]]].
    - rewrite <- FC. destruct rows as [|r0 rest]; [|].
      { assert (E : filter (is_observed (T := XR) K keqb []) keys = []) by (clear FC; induction keys as [|k0 keys0 IHk]; [reflexivity|exact IHk]).
        unfold agg_runner, group_agg. rewrite E. reflexivity. }
      unfold agg_runner. f_equal. unfold the_fcn.
      assert (E : List.length (distinct (filter notnan (map snd (r0 :: rest)))) = 1%nat).
      { assert (O2 : forall x, In x (map snd (r0 :: rest)) -> x = Fin 1).
        { intros x I. apply in_map_iff in I. destruct I as [r [<- I]]. apply Ones, I. }
        clear - O2. cbn [map] in *. revert O2. generalize (snd r0). generalize (map snd rest). intro l.
        induction l as [|y l IH]; intros x O2.
        - cbn [filter]. rewrite (O2 x) by (left; reflexivity). reflexivity.
        - assert (Ex : x = Fin 1) by (apply O2; left; reflexivity).
          assert (Ey : y = Fin 1) by (apply O2; right; left; reflexivity).
          specialize (IH y (fun z I => O2 z (or_intror I))). subst x y.
          cbn [filter] in *. change (notnan (Fin 1)) with true in *. cbn iota in *. cbn [distinct existsb] in *.
          rewrite fin_eqb. replace (Reqb 1 1) with true by (symmetry; apply Reqb_true; reflexivity). cbn [orb]. exact IH. }
      rewrite E. reflexivity.
    - intros k P. rewrite Obs in P. unfold H. destruct (Nat.eqb (n k) 0); [reflexivity|discriminate].
  Qed.
End Tab.

(* ------------------------------------------------------------------ counting *)
Lemma nat_eqb_spec a b : Nat.eqb a b = true <-> a = b. Proof. apply Nat.eqb_eq. Qed.
Lemma k2_eqb_spec (a b : k2) : k2_eqb a b = true <-> a = b.
Proof.
  destruct a as [i j], b as [i' j']. unfold k2_eqb. cbn [fst snd]. rewrite andb_true_iff, !Nat.eqb_eq. split.
  - intros [-> ->]. reflexivity.
  - intro E. injection E as -> ->. auto.
Qed.
Lemma tally_ext {X} (p q : X -> bool) l : (forall x, In x l -> p x = q x) -> tally p l = tally q l.
Proof. intro E. unfold tally. f_equal. apply filter_ext_in. exact E. Qed.
Lemma tally_cons {X} (p : X -> bool) x l : tally p (x :: l) = ((if p x then 1 else 0) + tally p l)%nat.
Proof. unfold tally. cbn [filter]. destruct (p x); reflexivity. Qed.
Lemma sum_tally {X K} (f : X -> option K) (eqb : K -> K -> bool) (keys : list K) (l : list X) :
  (forall a b, eqb a b = true <-> a = b) -> NoDup keys -> (forall x k, f x = Some k -> In k keys) ->
  list_sum (map (fun k => tally (fun x => match f x with Some q => eqb q k | None => false end) l) keys)
  = tally (fun x => match f x with Some _ => true | None => false end) l.
Proof.
  intros Sp ND C. induction l as [|x l IH].
  - clear. induction keys as [|k keys IH]; [reflexivity|exact IH].
  - rewrite tally_cons, <- IH. clear IH.
    transitivity (list_sum (map (fun k => (if match f x with Some q => eqb q k | None => false end then 1 else 0)) keys)
                  + list_sum (map (fun k => tally (fun x => match f x with Some q => eqb q k | None => false end) l) keys))%nat.
    { clear. induction keys as [|k keys IH]; [reflexivity|]. cbn [map list_sum fold_right]. rewrite tally_cons.
      unfold list_sum in IH. rewrite IH. lia. }
    f_equal. destruct (f x) as [q|] eqn:F.
    + specialize (C x q F). clear - Sp ND C. induction keys as [|k keys IH]; [destruct C|].
      apply NoDup_cons_iff in ND. destruct ND as [N ND]. cbn [map list_sum fold_right]. destruct C as [->|C].
      * replace (eqb q q) with true by (symmetry; apply Sp; reflexivity).
        assert (Z : list_sum (map (fun k => if eqb q k then 1 else 0)%nat keys) = 0%nat); [|unfold list_sum in Z; rewrite Z; lia].
        clear - N Sp. induction keys as [|k keys IH]; [reflexivity|]. cbn [map list_sum fold_right].
        destruct (eqb q k) eqn:E; [apply Sp in E; subst; exfalso; apply N; left; reflexivity|].
        unfold list_sum in IH. rewrite IH; [reflexivity|]. intro I. apply N. right. exact I.
      * unfold list_sum in IH. rewrite IH by assumption. destruct (eqb q k) eqn:E; [|reflexivity].
        apply Sp in E. subst. contradiction.
    + clear. induction keys as [|k keys IH]; [reflexivity|exact IH].
Qed.

(* ------------------------------------------------------------------ one axis *)
Lemma rows1_ones b lg xs : rows1 b (set_data1 lg xs None) = map (fun x => (cut b (coord lg x), Fin 1)) xs.
Proof.
  unfold rows1, set_data1. rewrite fin_a1. induction xs as [|x xs IH]; [reflexivity|]. cbn [map combine fst snd]. f_equal. exact IH.
Qed.
Lemma members_ones {K X} (eqb : K -> K -> bool) (f : X -> option K) (xs : list X) k :
  List.length (members K eqb (map (fun x => (f x, Fin 1)) xs) k)
  = tally (fun x => match f x with Some q => eqb q k | None => false end) xs.
Proof.
  unfold members, tally. rewrite map_length. induction xs as [|x xs IH]; [reflexivity|]. cbn [map filter fst].
  destruct (match f x with Some q => eqb q k | None => false end); cbn [List.length]; rewrite IH; reflexivity.
Qed.
Lemma bins_fin e : bins (map Fin e) = seq 0 (nbin e).
Proof. unfold bins. rewrite intervals_nth, map_length, seq_length. reflexivity. Qed.
Lemma width_fin e i : (i < nbin e)%nat -> width (map Fin e) i = Fin (wid e i).
Proof.
  intro L. unfold width. rewrite intervals_nth.
  rewrite (nth_indep _ (anan, anan) ((fun i => (Fin (nth i e 0), Fin (nth (S i) e 0))) 0%nat)) by (rewrite map_length, seq_length; lia).
  rewrite (map_nth (fun i => (Fin (nth i e 0), Fin (nth (S i) e 0)))), seq_nth by lia. cbn [fst snd plus]. apply fin_sub.
Qed.
(** how many of the values lie in bin i *)
Definition filled (lg : bool) (e : list R) (xs : list XR) (i : nat) : nat := tally (fun x => bin e i (coord lg x)) xs.
Lemma cut_match e v i : ordered e -> (i < nbin e)%nat -> match cut (map Fin e) v with Some q => Nat.eqb q i | None => false end = bin e i v.
Proof.
  intros O L. destruct (cut (map Fin e) v) as [q|] eqn:C.
  - apply cut_some in C; [|assumption]. destruct C as [Lq B]. destruct (Nat.eqb q i) eqn:E.
    + apply Nat.eqb_eq in E. subst. auto.
    + destruct (bin e i v) eqn:B2; [|reflexivity]. exfalso. apply Nat.eqb_neq in E. apply E. eapply bin_unique; eauto.
  - destruct (bin e i v) eqn:B; [|reflexivity]. exfalso. assert (cut (map Fin e) v = Some i) by (apply cut_some; auto). congruence.
Qed.
(** the table behind a 1D histogram *)
Lemma hist1_table lg e xs clim : ordered e ->
  exists p H, (forall f, f = FDefault \/ f = FCount ->
       agg_runner nat Nat.eqb (bins (map Fin e)) clim f (rows1 (map Fin e) (set_data1 lg xs None)) = table nat p H (seq 0 (nbin e)))
    /\ supported nat p H
    /\ (forall i, (i < nbin e)%nat -> H i = let n := filled lg e xs i in
         if Nat.eqb n 0 then None else if within clim (Fin (INR n)) then Some (INR n) else None)
    /\ (forall i, (i < nbin e)%nat -> p i = negb (Nat.eqb (filled lg e xs i) 0)).
Proof.
  intro O. rewrite rows1_ones, bins_fin.
  destruct (agg_runner_table nat Nat.eqb (seq 0 (nbin e)) clim (map (fun x => (cut (map Fin e) (coord lg x), Fin 1)) xs)) as [H [D [C [S [HH P]]]]].
  { intros r I. apply in_map_iff in I. destruct I as [x [<- _]]. reflexivity. }
  assert (N : forall i, (i < nbin e)%nat -> List.length (members nat Nat.eqb (map (fun x => (cut (map Fin e) (coord lg x), Fin 1)) xs) i) = filled lg e xs i).
  { intros i L. rewrite (members_ones Nat.eqb (fun x => cut (map Fin e) (coord lg x))). apply tally_ext. intros x _. apply cut_match; assumption. }
  eexists. exists H. split; [intros f [->| ->]; [exact D|exact C]|]. split; [exact S|]. split.
  - intros i L. rewrite HH. cbv zeta. rewrite N by assumption. reflexivity.
  - intros i L. rewrite P. cbv zeta. rewrite N by assumption. reflexivity.
Qed.

(** C71: without limits and normalisation each bin shows the number of values in it (NaN when it is empty), and the
    bins together count exactly the values in (first edge, last edge]. *)
Theorem C71_counts_1d : forall (lg : bool) (e : list R) (xs : list XR) t, ordered e ->
  agg1 lg N1None nolim (map Fin e) FDefault (set_data1 lg xs None) = Ok t ->
  (forall i, (S i < List.length e)%nat ->
     let n := tally (fun x => inb (nth i e 0) (nth (S i) e 0) (coord lg x)) xs in
     agg1_value t i = if Nat.eqb n 0 then NaN else Fin (INR n))
  /\ sum_skip (map (agg1_value t) (seq 0 (List.length e - 1)))
     = Fin (INR (tally (fun x => inb (nth 0 e 0) (nth (List.length e - 1) e 0) (coord lg x)) xs)).
Proof.
  intros lg e xs t O E. unfold agg1, axis_normalizer1 in E. injection E as <-.
  destruct (hist1_table lg e xs nolim O) as [p [H [D [Sup [HH P]]]]].
  rewrite (D FDefault) by auto.
  assert (V : forall i, (i < nbin e)%nat -> H i = if Nat.eqb (filled lg e xs i) 0 then None else Some (INR (filled lg e xs i))).
  { intros i L. rewrite HH by assumption. cbv zeta. destruct (Nat.eqb (filled lg e xs i) 0); reflexivity. }
  split.
  - intros i L n. unfold agg1_value. rewrite (at_table nat Nat.eqb nat_eqb_spec) by (auto; apply in_seq; unfold nbin; lia).
    rewrite V by (unfold nbin; lia). subst n. unfold filled, bin.
    destruct (Nat.eqb (tally (fun x => inb (nth i e 0) (nth (S i) e 0) (coord lg x)) xs) 0); reflexivity.
  - change (List.length e - 1)%nat with (nbin e).
    rewrite (map_ext_in _ (fun i => cell (H i))).
    2:{ intros i I. apply (at_table nat Nat.eqb nat_eqb_spec); assumption. }
    rewrite <- (map_map H cell), sum_skip_cells. f_equal.
    transitivity (INR (list_sum (map (filled lg e xs) (seq 0 (nbin e))))).
    + assert (G : forall l, (forall i, In i l -> (i < nbin e)%nat) -> Rsum (present (map H l)) = INR (list_sum (map (filled lg e xs) l))).
      { induction l as [|i l IH]; intro B; [reflexivity|]. cbn [map list_sum fold_right]. rewrite plus_INR.
        unfold list_sum in IH. rewrite <- IH by (intros; apply B; right; assumption).
        change (present (H i :: map H l)) with ((match H i with Some x => [x] | None => [] end) ++ present (map H l))%list.
        rewrite Rsum_app. f_equal. rewrite V by (apply B; left; reflexivity).
        destruct (Nat.eqb (filled lg e xs i) 0) eqn:Z; [apply Nat.eqb_eq in Z; rewrite Z; reflexivity|]. cbn. lra. }
      apply G. intros i I. apply in_seq in I. lia.
    + f_equal. rewrite <- (tally_ext (fun x => match cut (map Fin e) (coord lg x) with Some _ => true | None => false end)).
      * rewrite <- (sum_tally (fun x => cut (map Fin e) (coord lg x)) Nat.eqb (seq 0 (nbin e)) xs nat_eqb_spec (seq_NoDup _ _)).
        -- f_equal. apply map_ext_in. intros i I. apply in_seq in I. apply tally_ext. intros x _. symmetry. apply cut_match; [assumption|lia].
        -- intros x k C. apply cut_some in C; [|assumption]. apply in_seq. lia.
      * intros x _. change (inb (nth 0 e 0) (nth (nbin e) e 0) (coord lg x)) with (range e (coord lg x)).
        destruct (cut (map Fin e) (coord lg x)) as [q|] eqn:C.
        -- destruct (range e (coord lg x)) eqn:B; [reflexivity|]. apply cut_none in B; [|assumption]. congruence.
        -- apply cut_none in C; [|assumption]. congruence.
Qed.

(* ------------------------------------------------------------------ two axes *)
Definition cell2 (ex ey : list R) (i j : nat) (r : XR * XR * XR) : bool := bin ex i (fst (fst r)) && bin ey j (snd (fst r)).
Definition unweighted (data : list (XR * XR * XR)) : Prop := forall r, In r data -> snd r = Fin 1.
Definition grid (ex ey : list R) : list k2 := list_prod (seq 0 (nbin ex)) (seq 0 (nbin ey)).
Lemma in_grid ex ey i j : In (i, j) (grid ex ey) <-> (i < nbin ex)%nat /\ (j < nbin ey)%nat.
Proof. unfold grid. rewrite in_prod_iff, !in_seq. lia. Qed.
Lemma NoDup_prod {A B} (l : list A) (m : list B) : NoDup l -> NoDup m -> NoDup (list_prod l m).
Proof.
  intros Nl Nm. induction l as [|a l IH]; [constructor|]. apply NoDup_cons_iff in Nl. destruct Nl as [N Nl].
  cbn [list_prod].
  assert (G : forall (u v : list (A * B)), NoDup u -> NoDup v -> (forall x, In x u -> ~ In x v) -> NoDup (u ++ v)).
  { induction u as [|x u IHu]; intros v Nu Nv D; [exact Nv|]. apply NoDup_cons_iff in Nu. destruct Nu as [Nx Nu].
    cbn [app]. constructor.
    - intro I. apply in_app_or in I. destruct I as [I|I]; [contradiction|]. apply (D x); [left; reflexivity|exact I].
    - apply IHu; [assumption|assumption|]. intros y I. apply D. right. exact I. }
  apply G.
  - apply FinFun.Injective_map_NoDup; [|exact Nm]. intros x y E. injection E as <-. reflexivity.
  - apply IH. exact Nl.
  - intros [x y] I I2. apply in_map_iff in I. destruct I as [z [E _]]. injection E as <- <-.
    apply in_prod_iff in I2. destruct I2 as [I2 _]. contradiction.
Qed.
Lemma bins2_grid ex ey : bins2 (map Fin ex) (map Fin ey) = grid ex ey.
Proof. unfold bins2, grid. rewrite !bins_fin. reflexivity. Qed.
Lemma cut2_match ex ey r i j : ordered ex -> ordered ey -> (i < nbin ex)%nat -> (j < nbin ey)%nat ->
  match cut2 (map Fin ex) (map Fin ey) r with Some q => k2_eqb q (i, j) | None => false end = cell2 ex ey i j r.
Proof.
  intros Ox Oy Li Lj. unfold cell2. rewrite <- (cut_match ex _ i Ox Li), <- (cut_match ey _ j Oy Lj). unfold cut2.
  destruct (cut (map Fin ex) (fst (fst r))) as [a|]; [|reflexivity].
  destruct (cut (map Fin ey) (snd (fst r))) as [b|]; [|destruct (Nat.eqb a i); reflexivity]. reflexivity.
Qed.
Lemma cut2_some ex ey r i j : ordered ex -> ordered ey ->
  cut2 (map Fin ex) (map Fin ey) r = Some (i, j) <-> (i < nbin ex)%nat /\ (j < nbin ey)%nat /\ cell2 ex ey i j r = true.
Proof.
  intros Ox Oy. unfold cut2, cell2. rewrite andb_true_iff. pose proof (cut_some ex (fst (fst r)) i Ox) as X. pose proof (cut_some ey (snd (fst r)) j Oy) as Y.
  destruct (cut (map Fin ex) (fst (fst r))) as [a|].
  - destruct (cut (map Fin ey) (snd (fst r))) as [b|].
    + split; intro H.
      * injection H as -> ->. destruct (proj1 X eq_refl). destruct (proj1 Y eq_refl). auto.
      * destruct H as [H1 [H2 [H3 H4]]]. assert (Some a = Some i) by (apply X; auto). assert (Some b = Some j) by (apply Y; auto). congruence.
    + split; intro H; [discriminate|]. destruct H as [H1 [H2 [H3 H4]]]. assert (None = Some j) by (apply Y; auto). discriminate.
  - split; intro H; [discriminate|]. destruct H as [H1 [H2 [H3 H4]]]. assert (None = Some i) by (apply X; auto). discriminate.
Qed.
Definition limited (clim : option XR * option XR) (n : nat) : option R :=
  if Nat.eqb n 0 then None else if within clim (Fin (INR n)) then Some (INR n) else None.
Lemma hist2_table ex ey data clim : ordered ex -> ordered ey -> unweighted data ->
  exists p H, (forall f, f = FDefault \/ f = FCount ->
       agg_runner k2 k2_eqb (bins2 (map Fin ex) (map Fin ey)) clim f (rows2 (map Fin ex) (map Fin ey) data) = table k2 p H (grid ex ey))
    /\ supported k2 p H
    /\ (forall i j, (i < nbin ex)%nat -> (j < nbin ey)%nat -> H (i, j) = limited clim (tally (cell2 ex ey i j) data))
    /\ (forall i j, (i < nbin ex)%nat -> (j < nbin ey)%nat -> p (i, j) = negb (Nat.eqb (tally (cell2 ex ey i j) data) 0)).
Proof.
  intros Ox Oy U. rewrite bins2_grid.
  assert (E : rows2 (map Fin ex) (map Fin ey) data = map (fun r => (cut2 (map Fin ex) (map Fin ey) r, Fin 1)) data).
  { unfold rows2. apply map_ext_in. intros r I. rewrite (U r I). reflexivity. }
  rewrite E.
  destruct (agg_runner_table k2 k2_eqb (grid ex ey) clim (map (fun r => (cut2 (map Fin ex) (map Fin ey) r, Fin 1)) data)) as [H [D [C [Sup [HH P]]]]].
  { intros r I. apply in_map_iff in I. destruct I as [x [<- _]]. reflexivity. }
  assert (N : forall i j, (i < nbin ex)%nat -> (j < nbin ey)%nat ->
     List.length (members k2 k2_eqb (map (fun r => (cut2 (map Fin ex) (map Fin ey) r, Fin 1)) data) (i, j)) = tally (cell2 ex ey i j) data).
  { intros i j Li Lj. rewrite (members_ones k2_eqb (cut2 (map Fin ex) (map Fin ey))). apply tally_ext. intros x _. apply cut2_match; assumption. }
  eexists. exists H. split; [intros f [->| ->]; [exact D|exact C]|]. split; [exact Sup|]. split.
  - intros i j Li Lj. rewrite HH. cbv zeta. rewrite N by assumption. reflexivity.
  - intros i j Li Lj. rewrite P. cbv zeta. rewrite N by assumption. reflexivity.
Qed.
Lemma set_data2_unweighted lx ly xs ys data : set_data2 lx ly xs ys None = Ok data -> unweighted data.
Proof.
  unfold set_data2. intros E r I.
  destruct (filter _ (combine (combine xs ys) (map (fun _ => a1) xs))) as [|r0 l] eqn:F; [discriminate|]. rewrite <- F in E. injection E as <-.
  apply in_map_iff in I. destruct I as [[[x y] z] [<- I]]. cbn [snd].
  apply filter_In in I. destruct I as [I _]. apply in_combine_r in I. apply in_map_iff in I. destruct I as [? [<- _]]. apply fin_a1.
Qed.
Lemma coord_nan lg : coord lg NaN = NaN. Proof. destruct lg; reflexivity. Qed.
Lemma bin_nan e i : bin e i NaN = false. Proof. reflexivity. Qed.
Lemma set_data2_tally lx ly xs ys data (p : XR -> bool) (q : XR -> bool) : p NaN = false -> q NaN = false ->
  set_data2 lx ly xs ys None = Ok data ->
  tally (fun r => p (fst (fst r)) && q (snd (fst r))) data
  = tally (fun xy => p (coord lx (fst xy)) && q (coord ly (snd xy))) (combine xs ys).
Proof.
  intros PN QN E. unfold set_data2 in E.
  destruct (filter _ (combine (combine xs ys) (map (fun _ => a1) xs))) as [|r0 l] eqn:F; [discriminate|]. rewrite <- F in E. injection E as <-.
  clear F r0 l. revert ys. induction xs as [|x xs IH]; intro ys; [reflexivity|]. destruct ys as [|y ys]; [reflexivity|].
  cbn [combine map filter]. rewrite tally_cons. cbn [fst snd]. rewrite <- IH.
  replace (notnan a1) with true by (rewrite fin_a1; reflexivity). rewrite andb_true_r.
  destruct (notnan x) eqn:Nx; cbn [andb].
  - destruct (notnan y) eqn:Ny; cbn [andb].
    + cbn [map]. rewrite tally_cons. cbn [fst snd]. reflexivity.
    + destruct y; try discriminate. rewrite coord_nan, QN, andb_false_r. reflexivity.
  - destruct x; try discriminate. rewrite coord_nan, PN. reflexivity.
Qed.

(** C71 in two dimensions. *)
Theorem C71_counts_2d : forall (lx ly : bool) (ex ey : list R) (xs ys : list XR) data, ordered ex -> ordered ey ->
  set_data2 lx ly xs ys None = Ok data ->
  let t := agg2 lx ly N2None nolim nolim (map Fin ex) (map Fin ey) FDefault data in
  (forall i j, (S i < List.length ex)%nat -> (S j < List.length ey)%nat ->
     let n := tally (fun p => inb (nth i ex 0) (nth (S i) ex 0) (coord lx (fst p)) && inb (nth j ey 0) (nth (S j) ey 0) (coord ly (snd p))) (combine xs ys) in
     agg2_value t i j = if Nat.eqb n 0 then NaN else Fin (INR n))
  /\ sum_skip (map (fun k => agg2_value t (fst k) (snd k)) (list_prod (seq 0 (List.length ex - 1)) (seq 0 (List.length ey - 1))))
     = Fin (INR (tally (fun p => inb (nth 0 ex 0) (nth (List.length ex - 1) ex 0) (coord lx (fst p))
                              && inb (nth 0 ey 0) (nth (List.length ey - 1) ey 0) (coord ly (snd p))) (combine xs ys))).
Proof.
  intros lx ly ex ey xs ys data Ox Oy SD t.
  destruct (hist2_table ex ey data nolim Ox Oy (set_data2_unweighted _ _ _ _ _ SD)) as [p [H [D [Sup [HH P]]]]].
  assert (T : t = table k2 p H (grid ex ey)).
  { unfold t, agg2, axis_normalizer2. rewrite (D FDefault) by auto. erewrite map_ext; [apply map_id|]. intros [k v]. reflexivity. }
  assert (V : forall i j, (i < nbin ex)%nat -> (j < nbin ey)%nat -> agg2_value t i j = cell (H (i, j))).
  { intros i j Li Lj. rewrite T. apply (at_table k2 k2_eqb k2_eqb_spec); [assumption|]. apply in_grid. auto. }
  clearbody t. split.
  - intros i j Li Lj n. rewrite V by (unfold nbin; lia). rewrite HH by (unfold nbin; lia).
    replace (tally (cell2 ex ey i j) data) with n.
    + unfold limited. destruct (Nat.eqb n 0); reflexivity.
    + subst n. unfold cell2, bin. symmetry. apply (set_data2_tally lx ly xs ys data (inb (nth i ex 0) (nth (S i) ex 0)) (inb (nth j ey 0) (nth (S j) ey 0))); auto.
  - change (list_prod (seq 0 (List.length ex - 1)) (seq 0 (List.length ey - 1))) with (grid ex ey).
    rewrite (map_ext_in _ (fun k => cell (H k))).
    2:{ intros [i j] I. apply in_grid in I. cbn [fst snd]. apply V; apply I. }
    rewrite <- (map_map H cell), sum_skip_cells. f_equal.
    transitivity (INR (list_sum (map (fun k => tally (cell2 ex ey (fst k) (snd k)) data) (grid ex ey)))).
    + assert (G : forall l, (forall k, In k l -> In k (grid ex ey)) -> Rsum (present (map H l)) = INR (list_sum (map (fun k => tally (cell2 ex ey (fst k) (snd k)) data) l))).
      { induction l as [|[i j] l IH]; intro B; [reflexivity|]. cbn [map list_sum fold_right fst snd]. rewrite plus_INR.
        unfold list_sum in IH. rewrite <- IH by (intros; apply B; right; assumption).
        change (present (H (i, j) :: map H l)) with ((match H (i, j) with Some x => [x] | None => [] end) ++ present (map H l))%list.
        rewrite Rsum_app. f_equal. assert (I : In (i, j) (grid ex ey)) by (apply B; left; reflexivity). apply in_grid in I. rewrite HH by apply I.
        unfold limited. destruct (Nat.eqb (tally (cell2 ex ey i j) data) 0) eqn:Z; [apply Nat.eqb_eq in Z; rewrite Z; reflexivity|]. cbn. lra. }
      apply G. auto.
    + f_equal. etransitivity; [|exact (set_data2_tally lx ly xs ys data (range ex) (range ey) eq_refl eq_refl SD)].
      rewrite <- (tally_ext (fun r => match cut2 (map Fin ex) (map Fin ey) r with Some _ => true | None => false end)).
      * rewrite <- (sum_tally (cut2 (map Fin ex) (map Fin ey)) k2_eqb (grid ex ey) data k2_eqb_spec).
        -- f_equal. apply map_ext_in. intros [i j] I. apply in_grid in I. apply tally_ext. intros x _. symmetry. apply cut2_match; tauto.
        -- apply NoDup_prod; apply seq_NoDup.
        -- intros x [i j] C. apply cut2_some in C; [|assumption..]. apply in_grid. tauto.
      * intros r _. unfold cut2.
        pose proof (cut_none ex (fst (fst r)) Ox) as X. pose proof (cut_none ey (snd (fst r)) Oy) as Y.
        destruct (cut (map Fin ex) (fst (fst r))); destruct (range ex (fst (fst r))); try (destruct (proj1 X eq_refl); fail);
        destruct (cut (map Fin ey) (snd (fst r))); destruct (range ey (snd (fst r))); try reflexivity;
        try (specialize (proj1 X eq_refl)); try (specialize (proj2 X eq_refl)); try (specialize (proj1 Y eq_refl)); try (specialize (proj2 Y eq_refl)); intros; discriminate.
Qed.

(* ------------------------------------------------------------------ densities *)
Lemma present_cons o l : present (o :: l) = ((match o with Some x => [x] | None => [] end) ++ present l)%list.
Proof. reflexivity. Qed.
Lemma rsum_scaled {K} (H : K -> option R) (g : K -> R -> R) N l :
  (forall k c, In k l -> H k = Some c -> g k c = c / N) ->
  Rsum (present (map (fun k => option_map (g k) (H k)) l)) = Rsum (present (map H l)) / N.
Proof.
  induction l as [|k l IH]; intro G; [cbn; unfold Rdiv; ring|]. cbn [map]. rewrite !present_cons, !Rsum_app, IH by (intros; apply G; [right|]; assumption).
  destruct (H k) as [c|] eqn:E; cbn [option_map].
  - rewrite (G k c) by (auto; left; reflexivity). cbn. unfold Rdiv. ring.
  - cbn. unfold Rdiv. ring.
Qed.
Lemma rsum_present_pos {K} (H : K -> option R) l k0 c0 :
  (forall k c, In k l -> H k = Some c -> 0 < c) -> In k0 l -> H k0 = Some c0 -> 0 < Rsum (present (map H l)).
Proof.
  intros Pos I E. assert (NN : forall m, (forall k, In k m -> In k l) -> 0 <= Rsum (present (map H m))).
  { intros m B. apply Rsum_nonneg. intros x J. apply present_in in J. apply in_map_iff in J. destruct J as [k [Ek J]]. apply Rlt_le. exact (Pos k x (B k J) Ek). }
  apply in_split in I. destruct I as [u [v ->]]. rewrite map_app. cbn [map]. rewrite present_app, present_cons, !Rsum_app, E.
  assert (0 <= Rsum (present (map H u))) by (apply NN; intros; apply in_or_app; auto).
  assert (0 <= Rsum (present (map H v))) by (apply NN; intros; apply in_or_app; right; right; auto).
  assert (0 < c0) by (eapply Pos; [|exact E]; apply in_or_app; right; left; reflexivity). cbn. lra.
Qed.
Lemma limited_pos clim n c : limited clim n = Some c -> 1 <= c /\ c = INR n.
Proof.
  unfold limited. destruct (Nat.eqb n 0) eqn:Z; [discriminate|]. destruct (within clim (Fin (INR n))); [|discriminate].
  intro E. injection E as <-. split; [|reflexivity]. apply Nat.eqb_neq in Z. apply (le_INR 1). lia.
Qed.
Lemma wid_pos e i : strictly e -> (i < nbin e)%nat -> 0 < wid e i.
Proof. intros St L. unfold wid, nbin in *. assert (nth i e 0 < nth (S i) e 0) by (apply St; lia). lra. Qed.
Lemma cell_mul o w : amul (cell o) (Fin w) = cell (option_map (fun c => c * w) o).
Proof. destruct o; cbn [cell option_map]; [apply fin_mul|apply nan_mul_l]. Qed.
Lemma cell_notnan o : cell o <> NaN -> exists c, o = Some c.
Proof. destruct o; [eauto|]. intro H. exfalso. apply H. reflexivity. Qed.

(** what the program takes as the width of a bin: on a log axis the ratio of its edges *)
Definition taken_width (lg : bool) (e : list R) (i : nat) : R := if lg then Rpower 10 (wid e i) else wid e i.
Lemma exp10_fin w : exp10 (Fin w) = Fin (Rpower 10 w).
Proof. unfold exp10. rewrite fin_ofZ. apply fin_pow. lra. Qed.
Lemma taken_width_pos lg e i : strictly e -> (i < nbin e)%nat -> 0 < taken_width lg e i.
Proof. intros St L. unfold taken_width. destruct lg; [apply exp_pos|apply wid_pos; assumption]. Qed.
Lemma density1_value lg (e : list R) (xs : list XR) clim f t : strictly e -> (f = FDefault \/ f = FCount) ->
  agg1 lg N1Density clim (map Fin e) f (set_data1 lg xs None) = Ok t ->
  let H i := limited clim (filled lg e xs i) in
  let N := Rsum (present (map H (seq 0 (nbin e)))) in
  (forall i, (i < nbin e)%nat -> agg1_value t i = cell (option_map (fun c => c / (taken_width lg e i * N)) (H i)))
  /\ (forall i c, (i < nbin e)%nat -> H i = Some c -> 0 < N).
Proof.
  intros St Hf E H0 N.
  assert (E2 : t = axis_normalizer1 lg N1Density (map Fin e) (agg_runner nat Nat.eqb (bins (map Fin e)) clim f (rows1 (map Fin e) (set_data1 lg xs None)))).
  { destruct Hf as [-> | ->]; unfold agg1 in E; injection E as <-; reflexivity. }
  clear E. destruct (hist1_table lg e xs clim (strictly_ordered e St)) as [p [H [D [Sup [HH _]]]]].
  rewrite (D f Hf) in E2. unfold axis_normalizer1 in E2. cbv zeta in E2. rewrite (sum_table nat _ _ _ Sup) in E2.
  assert (HE : forall i, (i < nbin e)%nat -> H i = H0 i) by (intros i L; rewrite HH by exact L; reflexivity).
  assert (NE : N = Rsum (present (map H (seq 0 (nbin e))))).
  { unfold N. do 2 f_equal. apply map_ext_in. intros i I. apply in_seq in I. symmetry. apply HE. lia. }
  rewrite <- NE in E2.
  assert (HP : forall k c, In k (seq 0 (nbin e)) -> H k = Some c -> 0 < c).
  { intros k c I Ek. apply in_seq in I. rewrite HE in Ek by lia. apply (limited_pos clim) in Ek. lra. }
  assert (NP : forall k c, In k (seq 0 (nbin e)) -> H k = Some c -> 0 < N).
  { intros k c I Ek. rewrite NE. eapply rsum_present_pos; eauto. }
  rewrite (divide_table nat p H (seq 0 (nbin e)) _ (fun i => taken_width lg e i * N)) in E2.
  2:{ intros k c I _ Ek. specialize (NP k c I Ek). apply in_seq in I. rewrite width_fin by lia. split.
      - unfold taken_width. destruct lg; [rewrite exp10_fin|]; apply fin_mul.
      - assert (0 < taken_width lg e k) by (apply taken_width_pos; [assumption|lia]). apply Rmult_integral_contrapositive_currified; lra. }
  split.
  - intros i L. rewrite E2. unfold agg1_value. rewrite <- HE by exact L.
    apply (at_table nat Nat.eqb nat_eqb_spec p (fun i => option_map (fun c => c / (taken_width lg e i * N)) (H i))).
    + apply (supported_map nat p H (fun i c => c / (taken_width lg e i * N))). exact Sup.
    + apply in_seq. lia.
  - intros i c L Ei. rewrite <- HE in Ei by exact L. apply (NP i c); [apply in_seq; lia|exact Ei].
Qed.
Lemma density1_sum lg (e : list R) (xs : list XR) clim f t (w : nat -> R) : strictly e -> (f = FDefault \/ f = FCount) ->
  agg1 lg N1Density clim (map Fin e) f (set_data1 lg xs None) = Ok t ->
  (exists i, (i < nbin e)%nat /\ agg1_value t i <> NaN) ->
  exists N, 0 < N /\ N = Rsum (present (map (fun i => limited clim (filled lg e xs i)) (seq 0 (nbin e)))) /\
  sum_skip (map (fun i => amul (agg1_value t i) (Fin (w i))) (seq 0 (nbin e)))
  = Fin (Rsum (present (map (fun i => option_map (fun c => c / (taken_width lg e i * N) * w i) (limited clim (filled lg e xs i))) (seq 0 (nbin e))))).
Proof.
  intros St Hf E [i0 [L0 N0]]. destruct (density1_value lg e xs clim f t St Hf E) as [V NP]. cbv zeta in V, NP.
  set (H := fun i => limited clim (filled lg e xs i)) in *. set (N := Rsum (present (map H (seq 0 (nbin e))))) in *.
  exists N. split; [|split; [reflexivity|]].
  - rewrite V in N0 by exact L0. apply cell_notnan in N0. destruct N0 as [c Ec]. destruct (limited clim (filled lg e xs i0)) as [c0|] eqn:E0; [|discriminate].
    exact (NP i0 c0 L0 E0).
  - rewrite (map_ext_in _ (fun i => cell (option_map (fun c => c / (taken_width lg e i * N) * w i) (H i)))).
    2:{ intros i I. apply in_seq in I. rewrite V by lia. rewrite cell_mul. f_equal. unfold H. destruct (limited clim (filled lg e xs i)); reflexivity. }
    rewrite <- (map_map (fun i => option_map (fun c => c / (taken_width lg e i * N) * w i) (H i)) cell), sum_skip_cells. reflexivity.
Qed.
Lemma density1_integrates lg (e : list R) (xs : list XR) clim f t : strictly e -> (f = FDefault \/ f = FCount) ->
  agg1 lg N1Density clim (map Fin e) f (set_data1 lg xs None) = Ok t ->
  (exists i, (i < nbin e)%nat /\ agg1_value t i <> NaN) ->
  sum_skip (map (fun i => amul (agg1_value t i) (Fin (taken_width lg e i))) (seq 0 (nbin e))) = Fin 1.
Proof.
  intros St Hf E X. destruct (density1_sum lg e xs clim f t (taken_width lg e) St Hf E X) as [N [NP [NE ->]]].
  set (H := fun i => limited clim (filled lg e xs i)) in *.
  rewrite (rsum_scaled H (fun i c => c / (taken_width lg e i * N) * taken_width lg e i) N).
  - f_equal. unfold H in *. rewrite <- NE. field. lra.
  - intros k c I Ek. apply in_seq in I. assert (0 < taken_width lg e k) by (apply taken_width_pos; [assumption|lia]). field. lra.
Qed.
(** C72: a density over the bins that are shown integrates to one. *)
Theorem C72_density_1d : forall (e : list R) (xs : list XR) clim f t, strictly e -> (f = FDefault \/ f = FCount) ->
  agg1 false N1Density clim (map Fin e) f (set_data1 false xs None) = Ok t ->
  (exists i, (S i < List.length e)%nat /\ agg1_value t i <> NaN) ->
  sum_skip (map (fun i => amul (agg1_value t i) (Fin (nth (S i) e 0 - nth i e 0))) (seq 0 (List.length e - 1))) = Fin 1.
Proof.
  intros e xs clim f t St Hf E [i [L N]]. apply (density1_integrates false e xs clim f t St Hf E). exists i. split; [unfold nbin; lia|exact N].
Qed.
(** C72, log axis: the density is per unit ratio of the bin edges ... *)
Theorem C72_log_density_1d_partial : forall (e : list R) (xs : list XR) clim f t, strictly e -> (f = FDefault \/ f = FCount) ->
  agg1 true N1Density clim (map Fin e) f (set_data1 true xs None) = Ok t ->
  (exists i, (S i < List.length e)%nat /\ agg1_value t i <> NaN) ->
  sum_skip (map (fun i => amul (agg1_value t i) (Fin (Rpower 10 (nth (S i) e 0) / Rpower 10 (nth i e 0)))) (seq 0 (List.length e - 1))) = Fin 1.
Proof.
  intros e xs clim f t St Hf E [i [L N]].
  erewrite map_ext; [apply (density1_integrates true e xs clim f t St Hf E); exists i; split; [unfold nbin; lia|exact N]|].
  intro k. do 2 f_equal. unfold taken_width, wid, Rminus. rewrite Rpower_plus, Rpower_Ropp. reflexivity.
Qed.
Lemma pow10_above w : w < Rpower 10 w.
Proof.
  unfold Rpower. destruct (Rle_dec w 0) as [W|W]; [pose proof (exp_pos (w * ln 10)); lra|].
  assert (L : 1 < ln 10).
  { rewrite <- (ln_exp 1). apply ln_increasing; [apply exp_pos|]. pose proof exp_le_3. lra. }
  assert (0 < w * (ln 10 - 1)) by (apply Rmult_lt_0_compat; lra).
  assert (X : w * ln 10 <> 0) by lra. pose proof (exp_ineq1 _ X). lra.
Qed.
(** ... so per decade it never integrates to one, but always to less. *)
Theorem C72_log_density_1d_refuted : forall (e : list R) (xs : list XR) clim f t, strictly e -> (f = FDefault \/ f = FCount) ->
  agg1 true N1Density clim (map Fin e) f (set_data1 true xs None) = Ok t ->
  (exists i, (S i < List.length e)%nat /\ agg1_value t i <> NaN) ->
  exists s, sum_skip (map (fun i => amul (agg1_value t i) (Fin (nth (S i) e 0 - nth i e 0))) (seq 0 (List.length e - 1))) = Fin s /\ s < 1.
Proof.
  intros e xs clim f t St Hf E [i [L NN]].
  assert (X : exists i, (i < nbin e)%nat /\ agg1_value t i <> NaN) by (exists i; split; [unfold nbin; lia|exact NN]).
  destruct (density1_sum true e xs clim f t (wid e) St Hf E X) as [N [NP [NE S1]]].
  eexists. split; [exact S1|]. clear S1.
  set (H := fun i => limited clim (filled true e xs i)) in *.
  assert (LT : forall l, (forall k, In k l -> (k < nbin e)%nat) ->
      Rsum (present (map (fun i => option_map (fun c => c / (taken_width true e i * N) * wid e i) (H i)) l)) <= Rsum (present (map H l)) / N
      /\ ((exists k c, In k l /\ H k = Some c) -> Rsum (present (map (fun i => option_map (fun c => c / (taken_width true e i * N) * wid e i) (H i)) l)) < Rsum (present (map H l)) / N)).
  { assert (Step : forall k c, (k < nbin e)%nat -> H k = Some c -> c / (taken_width true e k * N) * wid e k < c / N).
    { intros k c Lk Ek. apply limited_pos in Ek. destruct Ek as [Ec _]. unfold taken_width. pose proof (pow10_above (wid e k)) as PA.
      pose proof (wid_pos e k St Lk). set (P := Rpower 10 (wid e k)) in *.
      replace (c / (P * N) * wid e k) with (c / N * (wid e k / P)) by (field; lra).
      rewrite <- (Rmult_1_r (c / N)) at 2. apply Rmult_lt_compat_l; [apply Rdiv_lt_0_compat; lra|].
      apply (Rmult_lt_reg_r P); [lra|]. replace (wid e k / P * P) with (wid e k) by (field; lra). lra. }
    induction l as [|k l IH]; intro B.
    - split; [cbn; unfold Rdiv; lra|]. intros [k [c [[] _]]].
    - destruct IH as [I1 I2]; [intros; apply B; right; assumption|]. cbn [map]. rewrite !present_cons, !Rsum_app.
      assert (Q : (Rsum (present (map H l)) + Rsum (match H k with Some x => [x] | None => [] end)) / N = Rsum (present (map H l)) / N + Rsum (match H k with Some x => [x] | None => [] end) / N) by (unfold Rdiv; ring).
      destruct (H k) as [c|] eqn:Ek; cbn [option_map].
      + assert (Z := Step k c (B k (or_introl eq_refl)) Ek). cbn [Rsum fold_right] in *. rewrite (Rplus_comm (c + 0)). rewrite Q. 
        replace ((c + 0) / N) with (c / N) by (f_equal; lra). split; [|intros _]; lra.
      + cbn [Rsum fold_right] in *. replace (0 + Rsum (present (map H l))) with (Rsum (present (map H l))) by lra. rewrite !Rplus_0_l. split; [exact I1|].
        intros [k' [c [[->|I] Ec]]]; [congruence|]. apply I2. eauto. }
  destruct (LT (seq 0 (nbin e))) as [_ LT2]; [intros k I; apply in_seq in I; lia|].
  replace 1 with (Rsum (present (map H (seq 0 (nbin e)))) / N) by (rewrite <- NE; field; lra).
  apply LT2. destruct X as [j [Lj Vj]]. destruct (density1_value true e xs clim f t St Hf E) as [V _]. cbv zeta in V. rewrite V in Vj by exact Lj.
  apply cell_notnan in Vj. destruct Vj as [c Ec]. destruct (limited clim (filled true e xs j)) as [c0|] eqn:E0; [|discriminate].
  exists j, c0. split; [apply in_seq; lia|exact E0].
Qed.
Lemma filter_prod_l (i : nat) (l : list nat) (m : list nat) : NoDup l -> In i l ->
  filter (fun k : nat * nat => Nat.eqb (fst k) i) (list_prod l m) = map (fun j => (i, j)) m.
Proof.
  intros ND I. induction l as [|a l IH]; [destruct I|]. apply NoDup_cons_iff in ND. destruct ND as [Na ND]. cbn [list_prod]. rewrite filter_app.
  assert (Z : forall u, ~ In i u -> filter (fun k : nat * nat => Nat.eqb (fst k) i) (list_prod u m) = []).
  { intros u Nu. induction u as [|b u IHu]; [reflexivity|]. cbn [list_prod]. rewrite filter_app, IHu by (intro; apply Nu; right; assumption).
    rewrite app_nil_r. assert (b <> i) by (intro; apply Nu; left; assumption). clear - H. induction m as [|y m IH]; [reflexivity|]. cbn [map filter fst].
    destruct (Nat.eqb b i) eqn:E; [apply Nat.eqb_eq in E; contradiction|exact IH]. }
  destruct I as [->|I].
  - rewrite Z by assumption. rewrite app_nil_r. clear. induction m as [|y m IH]; [reflexivity|]. cbn [map filter fst]. rewrite Nat.eqb_refl, IH. reflexivity.
  - assert (a <> i) by (intro; subst; contradiction). rewrite IH by assumption. clear - H.
    replace (filter _ (map (fun y => (a, y)) m)) with (@nil (nat * nat)); [reflexivity|]. symmetry.
    induction m as [|y m IH]; [reflexivity|]. cbn [map filter fst]. destruct (Nat.eqb a i) eqn:E; [apply Nat.eqb_eq in E; contradiction|exact IH].
Qed.
Lemma filter_prod_r (j : nat) (l : list nat) (m : list nat) : NoDup m -> In j m ->
  filter (fun k : nat * nat => Nat.eqb (snd k) j) (list_prod l m) = map (fun i => (i, j)) l.
Proof.
  intros ND I. induction l as [|a l IH]; [reflexivity|]. cbn [list_prod map]. rewrite filter_app, IH. change ((a, j) :: map (fun i => (i, j)) l) with ([(a, j)] ++ map (fun i => (i, j)) l)%list.
  f_equal. clear IH. induction m as [|y m IH]; [destruct I|]. apply NoDup_cons_iff in ND. destruct ND as [Ny ND]. cbn [map filter snd].
  destruct I as [->|I].
  - rewrite Nat.eqb_refl. f_equal. clear - Ny. induction m as [|z m IH]; [reflexivity|]. cbn [map filter snd].
    destruct (Nat.eqb z j) eqn:E; [apply Nat.eqb_eq in E; subst; exfalso; apply Ny; left; reflexivity|]. apply IH. intro; apply Ny; right; assumption.
  - destruct (Nat.eqb y j) eqn:E; [apply Nat.eqb_eq in E; subst; contradiction|]. apply IH; assumption.
Qed.
Lemma no_alim (t : list (k2 * XR)) : map (fun kv : k2 * XR => (fst kv, if within nolim (snd kv) then snd kv else anan)) t = t.
Proof. erewrite map_ext; [apply map_id|]. intros [k v]. reflexivity. Qed.

(** C72 in two dimensions, linear axes. *)
Theorem C72_density_2d : forall (ex ey : list R) (xs ys : list XR) data clim f, strictly ex -> strictly ey -> (f = FDefault \/ f = FCount) ->
  set_data2 false false xs ys None = Ok data ->
  let t := agg2 false false N2Density clim nolim (map Fin ex) (map Fin ey) f data in
  (exists i j, (S i < List.length ex)%nat /\ (S j < List.length ey)%nat /\ agg2_value t i j <> NaN) ->
  sum_skip (map (fun k => amul (agg2_value t (fst k) (snd k)) (Fin (wid ex (fst k) * wid ey (snd k))))
                (list_prod (seq 0 (List.length ex - 1)) (seq 0 (List.length ey - 1)))) = Fin 1.
Proof.
  intros ex ey xs ys data clim f Sx Sy Hf SD t [i0 [j0 [Li0 [Lj0 N0]]]].
  destruct (hist2_table ex ey data clim (strictly_ordered _ Sx) (strictly_ordered _ Sy) (set_data2_unweighted _ _ _ _ _ SD)) as [p [H [D [Sup [HH _]]]]].
  set (N := Rsum (present (map H (grid ex ey)))).
  assert (HP : forall k c, In k (grid ex ey) -> H k = Some c -> 0 < c).
  { intros [i j] c I Ek. apply in_grid in I. rewrite HH in Ek by apply I. apply limited_pos in Ek. lra. }
  assert (NP : forall k c, In k (grid ex ey) -> H k = Some c -> 0 < N).
  { intros k c I Ek. eapply rsum_present_pos; eauto. }
  assert (WX : forall k, In k (grid ex ey) -> 0 < wid ex (fst k)) by (intros [i j] I; apply in_grid in I; apply wid_pos; [exact Sx|apply I]).
  assert (WY : forall k, In k (grid ex ey) -> 0 < wid ey (snd k)) by (intros [i j] I; apply in_grid in I; apply wid_pos; [exact Sy|apply I]).
  assert (T : t = table k2 p (fun k => option_map (fun c => c / N) (option_map (fun c => c / wid ey (snd k)) (option_map (fun c => c / wid ex (fst k)) (H k)))) (grid ex ey)).
  { unfold t, agg2. rewrite no_alim, (D f Hf). unfold axis_normalizer2. cbv zeta.
    rewrite (sum_table k2 _ _ _ Sup). fold N.
    rewrite (divide_table k2 p H (grid ex ey) _ (fun k => wid ex (fst k))).
    2:{ intros k c I _ _. specialize (WX k I). destruct k as [i j]. apply in_grid in I. cbn [fst snd] in *. split; [apply width_fin; apply I|lra]. }
    rewrite (divide_table k2 p (fun k => option_map (fun c => c / wid ex (fst k)) (H k)) (grid ex ey) _ (fun k => wid ey (snd k))).
    2:{ intros k c I _ _. specialize (WY k I). destruct k as [i j]. apply in_grid in I. cbn [fst snd] in *. split; [apply width_fin; apply I|lra]. }
    rewrite (divide_table k2 p (fun k => option_map (fun c => c / wid ey (snd k)) (option_map (fun c => c / wid ex (fst k)) (H k))) (grid ex ey) _ (fun _ => N)).
    2:{ intros k c I _ Ek. split; [reflexivity|]. destruct (H k) as [c0|] eqn:E0; [|discriminate]. specialize (NP k c0 I E0). lra. }
    reflexivity. }
  assert (V : forall k, In k (grid ex ey) -> agg2_value t (fst k) (snd k) = cell (option_map (fun c => c / wid ex (fst k) / wid ey (snd k) / N) (H k))).
  { intros [i j] I. rewrite T. unfold agg2_value. cbn [fst snd].
    etransitivity; [apply (at_table k2 k2_eqb k2_eqb_spec); [|exact I]|].
    - intros k P. cbn beta. rewrite (Sup k P). reflexivity.
    - cbn [fst snd]. destruct (H (i, j)); reflexivity. }
  clearbody t. change (list_prod (seq 0 (List.length ex - 1)) (seq 0 (List.length ey - 1))) with (grid ex ey).
  assert (NP0 : 0 < N).
  { assert (I : In (i0, j0) (grid ex ey)) by (apply in_grid; unfold nbin; lia). pose proof (V _ I) as V0. cbn [fst snd] in V0. rewrite V0 in N0.
    apply cell_notnan in N0. destruct N0 as [c Ec]. destruct (H (i0, j0)) as [c0|] eqn:E0; [|discriminate]. eapply NP; eauto. }
  rewrite (map_ext_in _ (fun k => cell (option_map (fun c => c / wid ex (fst k) / wid ey (snd k) / N * (wid ex (fst k) * wid ey (snd k))) (H k)))).
  2:{ intros k I. rewrite V by exact I. rewrite cell_mul. f_equal. destruct (H k); reflexivity. }
  rewrite <- (map_map (fun k => option_map (fun c => c / wid ex (fst k) / wid ey (snd k) / N * (wid ex (fst k) * wid ey (snd k))) (H k)) cell), sum_skip_cells.
  rewrite (rsum_scaled H (fun k c => c / wid ex (fst k) / wid ey (snd k) / N * (wid ex (fst k) * wid ey (snd k))) N).
  - fold N. f_equal. field. lra.
  - intros k c I Ek. specialize (WX k I). specialize (WY k I). field. lra.
Qed.

Lemma table_col p H ex ey i : supported k2 p H -> (i < nbin ex)%nat ->
  present (map H (filter p (filter (fun k => Nat.eqb (fst k) i) (grid ex ey)))) = present (map (fun j => H (i, j)) (seq 0 (nbin ey))).
Proof.
  intros Sup L. rewrite (present_filter k2 p H _ Sup). unfold grid. rewrite filter_prod_l by (apply seq_NoDup || (apply in_seq; lia)).
  rewrite map_map. reflexivity.
Qed.
Lemma table_row p H ex ey j : supported k2 p H -> (j < nbin ey)%nat ->
  present (map H (filter p (filter (fun k => Nat.eqb (snd k) j) (grid ex ey)))) = present (map (fun i => H (i, j)) (seq 0 (nbin ex))).
Proof.
  intros Sup L. rewrite (present_filter k2 p H _ Sup). unfold grid. rewrite filter_prod_r by (apply seq_NoDup || (apply in_seq; lia)).
  rewrite map_map. reflexivity.
Qed.

(** C72: each column ('cd') or row ('rd') that shows anything integrates to one, along the plotted coordinate. *)
Theorem C72_column_density : forall (lx ly : bool) (ex ey : list R) (xs ys : list XR) data clim f i, strictly ex -> strictly ey -> (f = FDefault \/ f = FCount) ->
  set_data2 lx ly xs ys None = Ok data -> (S i < List.length ex)%nat ->
  let t := agg2 lx ly N2ColDensity clim nolim (map Fin ex) (map Fin ey) f data in
  (exists j, (S j < List.length ey)%nat /\ agg2_value t i j <> NaN) ->
  sum_skip (map (fun j => amul (agg2_value t i j) (Fin (nth (S j) ey 0 - nth j ey 0))) (seq 0 (List.length ey - 1))) = Fin 1.
Proof.
  intros lx ly ex ey xs ys data clim f i Sx Sy Hf SD Li t [j0 [Lj0 N0]].
  destruct (hist2_table ex ey data clim (strictly_ordered _ Sx) (strictly_ordered _ Sy) (set_data2_unweighted _ _ _ _ _ SD)) as [p [H [D [Sup [HH _]]]]].
  set (N := fun k : k2 => Rsum (present (map (fun j => H (fst k, j)) (seq 0 (nbin ey))))).
  assert (NP : forall k c, In k (grid ex ey) -> H k = Some c -> 0 < N k).
  { intros [a b] c I Ek. apply in_grid in I. apply (rsum_present_pos (fun j => H (a, j)) _ b c).
    - intros j c0 J Ej. apply in_seq in J. rewrite HH in Ej by lia. apply limited_pos in Ej. lra.
    - apply in_seq. lia.
    - exact Ek. }
  assert (WY : forall k, In k (grid ex ey) -> 0 < wid ey (snd k)) by (intros [a b] I; apply in_grid in I; apply wid_pos; [exact Sy|apply I]).
  assert (T : t = table k2 p (fun k => option_map (fun c => c / wid ey (snd k)) (option_map (fun c => c / N k) (H k))) (grid ex ey)).
  { unfold t, agg2. rewrite no_alim, (D f Hf). unfold axis_normalizer2.
    rewrite (divide_table k2 p H (grid ex ey) _ N).
    2:{ intros k c I _ Ek. pose proof (NP k c I Ek) as NPk. destruct k as [a b]. apply in_grid in I. cbn [fst snd] in *. split; [|lra].
        unfold col_of. etransitivity; [apply f_equal, (sub_table k2 p H (grid ex ey) (fun k => Nat.eqb (fst k) a))|]. rewrite sum_skip_cells, table_col by (auto; apply I). reflexivity. }
    rewrite (divide_table k2 p (fun k => option_map (fun c => c / N k) (H k)) (grid ex ey) _ (fun k => wid ey (snd k))).
    2:{ intros k c I _ _. specialize (WY k I). destruct k as [a b]. apply in_grid in I. cbn [fst snd] in *. split; [apply width_fin; apply I|lra]. }
    reflexivity. }
  assert (V : forall k, In k (grid ex ey) -> agg2_value t (fst k) (snd k) = cell (option_map (fun c => c / N k / wid ey (snd k)) (H k))).
  { intros [a b] I. rewrite T. unfold agg2_value. cbn [fst snd].
    etransitivity; [apply (at_table k2 k2_eqb k2_eqb_spec); [|exact I]|].
    - intros k P. cbn beta. rewrite (Sup k P). reflexivity.
    - cbn [fst snd]. destruct (H (a, b)); reflexivity. }
  clearbody t. change (List.length ey - 1)%nat with (nbin ey).
  assert (IG : forall j, In j (seq 0 (nbin ey)) -> In (i, j) (grid ex ey)).
  { intros j I. apply in_seq in I. apply in_grid. unfold nbin in *. lia. }
  set (M := Rsum (present (map (fun j => H (i, j)) (seq 0 (nbin ey))))).
  assert (NP0 : 0 < M).
  { assert (I : In (i, j0) (grid ex ey)) by (apply in_grid; unfold nbin; lia). pose proof (V _ I) as V0. cbn [fst snd] in V0. rewrite V0 in N0.
    apply cell_notnan in N0. destruct N0 as [c Ec]. destruct (H (i, j0)) as [c0|] eqn:E0; [|discriminate]. exact (NP (i, j0) c0 I E0). }
  rewrite (map_ext_in _ (fun j => cell (option_map (fun c => c / M / wid ey j * wid ey j) (H (i, j))))).
  2:{ intros j I. pose proof (V (i, j) (IG j I)) as V1. cbn [fst snd] in V1. rewrite V1. fold (wid ey j). rewrite cell_mul. f_equal. destruct (H (i, j)); reflexivity. }
  rewrite <- (map_map (fun j => option_map (fun c => c / M / wid ey j * wid ey j) (H (i, j))) cell), sum_skip_cells.
  rewrite (rsum_scaled (fun j => H (i, j)) (fun j c => c / M / wid ey j * wid ey j) M).
  - fold M. f_equal. field. lra.
  - intros j c I Ek. specialize (WY (i, j) (IG j I)). cbn [fst snd] in WY. field. lra.
Qed.
Theorem C72_row_density : forall (lx ly : bool) (ex ey : list R) (xs ys : list XR) data clim f j, strictly ex -> strictly ey -> (f = FDefault \/ f = FCount) ->
  set_data2 lx ly xs ys None = Ok data -> (S j < List.length ey)%nat ->
  let t := agg2 lx ly N2RowDensity clim nolim (map Fin ex) (map Fin ey) f data in
  (exists i, (S i < List.length ex)%nat /\ agg2_value t i j <> NaN) ->
  sum_skip (map (fun i => amul (agg2_value t i j) (Fin (nth (S i) ex 0 - nth i ex 0))) (seq 0 (List.length ex - 1))) = Fin 1.
Proof.
  intros lx ly ex ey xs ys data clim f j Sx Sy Hf SD Lj t [i0 [Li0 N0]].
  destruct (hist2_table ex ey data clim (strictly_ordered _ Sx) (strictly_ordered _ Sy) (set_data2_unweighted _ _ _ _ _ SD)) as [p [H [D [Sup [HH _]]]]].
  set (N := fun k : k2 => Rsum (present (map (fun i => H (i, snd k)) (seq 0 (nbin ex))))).
  assert (NP : forall k c, In k (grid ex ey) -> H k = Some c -> 0 < N k).
  { intros [a b] c I Ek. apply in_grid in I. apply (rsum_present_pos (fun i => H (i, b)) _ a c).
    - intros i c0 J Ej. apply in_seq in J. rewrite HH in Ej by lia. apply limited_pos in Ej. lra.
    - apply in_seq. lia.
    - exact Ek. }
  assert (WX : forall k, In k (grid ex ey) -> 0 < wid ex (fst k)) by (intros [a b] I; apply in_grid in I; apply wid_pos; [exact Sx|apply I]).
  assert (T : t = table k2 p (fun k => option_map (fun c => c / wid ex (fst k)) (option_map (fun c => c / N k) (H k))) (grid ex ey)).
  { unfold t, agg2. rewrite no_alim, (D f Hf). unfold axis_normalizer2.
    rewrite (divide_table k2 p H (grid ex ey) _ N).
    2:{ intros k c I _ Ek. pose proof (NP k c I Ek) as NPk. destruct k as [a b]. apply in_grid in I. cbn [fst snd] in *. split; [|lra].
        unfold row_of. etransitivity; [apply f_equal, (sub_table k2 p H (grid ex ey) (fun k => Nat.eqb (snd k) b))|]. rewrite sum_skip_cells, table_row by (auto; apply I). reflexivity. }
    rewrite (divide_table k2 p (fun k => option_map (fun c => c / N k) (H k)) (grid ex ey) _ (fun k => wid ex (fst k))).
    2:{ intros k c I _ _. specialize (WX k I). destruct k as [a b]. apply in_grid in I. cbn [fst snd] in *. split; [apply width_fin; apply I|lra]. }
    reflexivity. }
  assert (V : forall k, In k (grid ex ey) -> agg2_value t (fst k) (snd k) = cell (option_map (fun c => c / N k / wid ex (fst k)) (H k))).
  { intros [a b] I. rewrite T. unfold agg2_value. cbn [fst snd].
    etransitivity; [apply (at_table k2 k2_eqb k2_eqb_spec); [|exact I]|].
    - intros k P. cbn beta. rewrite (Sup k P). reflexivity.
    - cbn [fst snd]. destruct (H (a, b)); reflexivity. }
  clearbody t. change (List.length ex - 1)%nat with (nbin ex).
  assert (IG : forall i, In i (seq 0 (nbin ex)) -> In (i, j) (grid ex ey)).
  { intros i I. apply in_seq in I. apply in_grid. unfold nbin in *. lia. }
  set (M := Rsum (present (map (fun i => H (i, j)) (seq 0 (nbin ex))))).
  assert (NP0 : 0 < M).
  { assert (I : In (i0, j) (grid ex ey)) by (apply in_grid; unfold nbin; lia). pose proof (V _ I) as V0. cbn [fst snd] in V0. rewrite V0 in N0.
    apply cell_notnan in N0. destruct N0 as [c Ec]. destruct (H (i0, j)) as [c0|] eqn:E0; [|discriminate]. exact (NP (i0, j) c0 I E0). }
  rewrite (map_ext_in _ (fun i => cell (option_map (fun c => c / M / wid ex i * wid ex i) (H (i, j))))).
  2:{ intros i I. pose proof (V (i, j) (IG i I)) as V1. cbn [fst snd] in V1. rewrite V1. fold (wid ex i). rewrite cell_mul. f_equal. destruct (H (i, j)); reflexivity. }
  rewrite <- (map_map (fun i => option_map (fun c => c / M / wid ex i * wid ex i) (H (i, j))) cell), sum_skip_cells.
  rewrite (rsum_scaled (fun i => H (i, j)) (fun i c => c / M / wid ex i * wid ex i) M).
  - fold M. f_equal. field. lra.
  - intros i c I Ek. specialize (WX (i, j) (IG i I)). cbn [fst snd] in WX. field. lra.
Qed.

(* ------------------------------------------------------------------ tables of arbitrary values *)
Section GTab.
  Variable K : Type.
  Variable keqb : K -> K -> bool.
  Hypothesis keqb_spec : forall a b, keqb a b = true <-> a = b.
  Definition gtab (p : K -> bool) (g : K -> XR) (keys : list K) : list (K * XR) := map (fun k => (k, g k)) (filter p keys).
  Lemma at_gtab p g keys k : at_key K keqb (gtab p g keys) k = if p k && existsb (fun q => keqb q k) keys then g k else NaN.
  Proof.
    unfold gtab. induction keys as [|q keys IH]; [cbn; rewrite andb_false_r; reflexivity|]. cbn [filter existsb].
    destruct (keqb q k) eqn:E.
    - apply keqb_spec in E. subst q. destruct (p k) eqn:P.
      + cbn [map at_key orb andb]. replace (keqb k k) with true by (symmetry; apply keqb_spec; reflexivity). reflexivity.
      + rewrite IH. reflexivity.
    - cbn [orb]. destruct (p q); [|exact IH]. cbn [map at_key]. rewrite E. exact IH.
  Qed.
  Lemma in_keys keys k : existsb (fun q => keqb q k) keys = true <-> In k keys.
  Proof.
    rewrite existsb_exists. split.
    - intros [q [I E]]. apply keqb_spec in E. subst. exact I.
    - intro I. exists k. split; [exact I|]. apply keqb_spec. reflexivity.
  Qed.
  Lemma at_gtab_in p g keys k : In k keys -> at_key K keqb (gtab p g keys) k = if p k then g k else NaN.
  Proof. intro I. rewrite at_gtab. replace (existsb _ keys) with true by (symmetry; apply in_keys; exact I). rewrite andb_true_r. reflexivity. Qed.
  Lemma in_gtab_keys (f : XR -> bool) p g keys k : f NaN = false ->
    In k (map fst (filter (fun kv : K * XR => f (snd kv)) (gtab p g keys))) <-> f (at_key K keqb (gtab p g keys) k) = true.
  Proof.
    intro FN. rewrite at_gtab. unfold gtab. rewrite in_map_iff. split.
    - intros [[q v] [<- I]]. apply filter_In in I. destruct I as [I F]. apply in_map_iff in I. destruct I as [q' [E I]]. injection E as <- <-.
      apply filter_In in I. destruct I as [I P]. cbn [fst snd] in *. rewrite P. apply in_keys in I. rewrite I. exact F.
    - intro F. destruct (p k) eqn:P; cbn [andb] in F; [|congruence]. destruct (existsb (fun q => keqb q k) keys) eqn:X; [|congruence].
      apply in_keys in X. exists (k, g k). split; [reflexivity|]. apply filter_In. split; [|exact F]. apply in_map_iff. exists k. split; [reflexivity|].
      apply filter_In. auto.
  Qed.
  Lemma runner_gtab keys clim f rows :
    agg_runner K keqb keys clim f rows
    = gtab (is_observed K keqb rows) (fun k => if within clim (count (members K keqb rows k)) then the_fcn f (map snd rows) (members K keqb rows k) else NaN) keys.
  Proof. unfold agg_runner, group_agg, gtab. rewrite map_map. reflexivity. Qed.
  Lemma divide_gtab p g keys d : divide_by K d (gtab p g keys) = gtab p (fun k => adiv (g k) (d k)) keys.
  Proof. unfold divide_by, gtab. rewrite map_map. reflexivity. Qed.
  Lemma mask_gtab p g keys (m : XR -> bool) : map (fun kv : K * XR => (fst kv, if m (snd kv) then snd kv else anan)) (gtab p g keys) = gtab p (fun k => if m (g k) then g k else anan) keys.
  Proof. unfold gtab. rewrite map_map. reflexivity. Qed.
  Lemma table_gtab p H keys : table K p H keys = gtab p (fun k => cell (H k)) keys.
  Proof. reflexivity. Qed.
End GTab.
Lemma within_iff lim x : within lim x = true <-> inlim lim x.
Proof.
  unfold within, inlim. rewrite andb_true_iff. destruct lim as [[a|] [b|]]; cbn [fst snd]; split; intros [H1 H2]; split; intros;
    try discriminate; try reflexivity; try (injection H as <-; assumption); try (apply H1; reflexivity); try (apply H2; reflexivity).
Qed.
(** every normalised aggregate is a table over the same bins *)
Lemma norm1_gtab lg norm b p g keys : exists g', axis_normalizer1 lg norm b (gtab nat p g keys) = gtab nat p g' keys.
Proof. destruct norm; [exists g; reflexivity|]. eexists. unfold axis_normalizer1. apply divide_gtab. Qed.
Lemma norm2_gtab lx ly norm bx by_ p g keys : exists g', axis_normalizer2 lx ly norm bx by_ (gtab k2 p g keys) = gtab k2 p g' keys.
Proof.
  destruct norm; unfold axis_normalizer2; cbv zeta; try (eexists; rewrite ?divide_gtab; reflexivity).
Qed.

(* ------------------------------------------------------------------ limits *)
(** C74: a count limit replaces by NaN exactly the bins whose count is outside it; the other bins keep their value. *)
Theorem C74_count_limit_masks_1d : forall (lg : bool) b f clim data t t0 n,
  agg1 lg N1None clim b f data = Ok t -> agg1 lg N1None nolim b f data = Ok t0 -> agg1 lg N1None nolim b FCount data = Ok n ->
  forall i, (inlim clim (agg1_value n i) -> agg1_value t i = agg1_value t0 i) /\ (~ inlim clim (agg1_value n i) -> agg1_value t i = NaN).
Proof.
  intros lg b f clim data t t0 n Et E0 En i.
  unfold agg1, axis_normalizer1 in *.
  assert (Ht : t = agg_runner nat Nat.eqb (bins b) clim f (rows1 b data)) by (destruct f; injection Et as <-; reflexivity).
  assert (H0 : t0 = agg_runner nat Nat.eqb (bins b) nolim f (rows1 b data)) by (destruct f; injection E0 as <-; reflexivity).
  injection En as <-. subst t t0. unfold agg1_value. rewrite !runner_gtab, !(at_gtab nat Nat.eqb nat_eqb_spec).
  destruct (is_observed nat Nat.eqb (rows1 b data) i && existsb (fun q => Nat.eqb q i) (bins b)); [|split; reflexivity].
  change (within nolim _) with true. cbn iota. unfold the_fcn at 3. cbn iota.
  split; intro W.
  - apply within_iff in W. cbn [the_fcn] in W. rewrite W. reflexivity.
  - destruct (within clim (count (members nat Nat.eqb (rows1 b data) i))) eqn:X; [|reflexivity]. exfalso. apply W. apply within_iff. exact X.
Qed.
Theorem C74_count_limit_masks_2d : forall (lx ly : bool) bx by_ f clim data i j,
  let n := agg2 lx ly N2None nolim nolim bx by_ FCount data in
  let t0 := agg2 lx ly N2None nolim nolim bx by_ f data in
  let t := agg2 lx ly N2None clim nolim bx by_ f data in
  (inlim clim (agg2_value n i j) -> agg2_value t i j = agg2_value t0 i j) /\ (~ inlim clim (agg2_value n i j) -> agg2_value t i j = NaN).
Proof.
  intros lx ly bx by_ f clim data i j n t0 t. unfold n, t0, t, agg2, axis_normalizer2, agg2_value. rewrite !no_alim, !runner_gtab, !(at_gtab k2 k2_eqb k2_eqb_spec).
  destruct (is_observed k2 k2_eqb (rows2 bx by_ data) (i, j) && existsb (fun q => k2_eqb q (i, j)) (bins2 bx by_)); [|split; reflexivity].
  change (within nolim _) with true. cbn iota.
  split; intro W.
  - apply within_iff in W. cbn [the_fcn] in W. rewrite W. reflexivity.
  - destruct (within clim (count (members k2 k2_eqb (rows2 bx by_ data) (i, j)))) eqn:X; [|reflexivity]. exfalso. apply W. apply within_iff. exact X.
Qed.
(** C74: a limit on the aggregate masks exactly the bins whose (normalised) value is outside it, whatever the normalisation. *)
Theorem C74_value_limit_masks : forall (lx ly : bool) norm bx by_ f clim alim data i j,
  let t0 := agg2 lx ly norm clim nolim bx by_ f data in
  let t := agg2 lx ly norm clim alim bx by_ f data in
  (inlim alim (agg2_value t0 i j) -> agg2_value t i j = agg2_value t0 i j) /\ (~ inlim alim (agg2_value t0 i j) -> agg2_value t i j = NaN).
Proof.
  intros lx ly norm bx by_ f clim alim data i j t0 t. unfold t0, t, agg2, agg2_value. rewrite !no_alim, !runner_gtab.
  match goal with |- context [axis_normalizer2 lx ly norm bx by_ (gtab k2 ?p ?g ?keys)] => destruct (norm2_gtab lx ly norm bx by_ p g keys) as [g' ->] end.
  rewrite mask_gtab, !(at_gtab k2 k2_eqb k2_eqb_spec).
  destruct (is_observed k2 k2_eqb (rows2 bx by_ data) (i, j) && existsb (fun q => k2_eqb q (i, j)) (bins2 bx by_)); [|split; reflexivity].
  split; intro W.
  - apply within_iff in W. rewrite W. reflexivity.
  - destruct (within alim (g' (i, j))) eqn:X; [|reflexivity]. exfalso. apply W. apply within_iff. exact X.
Qed.

(* ------------------------------------------------------------------ selection of plotted data *)
Lemma axis_taken_in keys c : axis_taken keys c = true <-> exists i, c = Some i /\ In i keys.
Proof.
  unfold axis_taken. destruct c as [i|]; [|split; [discriminate|intros [i [E _]]; discriminate]].
  rewrite existsb_exists. split.
  - intros [q [I E]]. apply Nat.eqb_eq in E. subst. eauto.
  - intros [q [E I]]. injection E as <-. exists i. rewrite Nat.eqb_refl. auto.
Qed.
Lemma notnan_true (x : XR) : notnan x = true <-> x <> NaN.
Proof. destruct x; split; intro H; try discriminate; try reflexivity; try (exfalso; apply H; reflexivity). Qed.
Lemma runner1_shape lg norm clim b f data t : agg1 lg norm clim b f data = Ok t -> exists p g, t = gtab nat p g (bins b).
Proof.
  unfold agg1. intro E.
  assert (X : exists p g, axis_normalizer1 lg norm b (agg_runner nat Nat.eqb (bins b) clim f (rows1 b data)) = gtab nat p g (bins b)).
  { rewrite runner_gtab. match goal with |- context [axis_normalizer1 lg norm b (gtab nat ?p ?g ?keys)] => destruct (norm1_gtab lg norm b p g keys) as [g' ->]; exists p, g'; reflexivity end. }
  destruct norm, f; try discriminate; injection E as <-; exact X.
Qed.
(** C75, one axis: a datum is selected exactly when its own bin shows a number. *)
Theorem C75_plotted_data_1d : forall (lg : bool) norm clim (e : list R) data t l, ordered e ->
  agg1 lg norm clim (map Fin e) FDefault data = Ok t -> plotted_series1 lg norm clim (map Fin e) data = Ok l ->
  Forall2 (fun r b => b = true <-> exists i, (S i < List.length e)%nat /\ inb (nth i e 0) (nth (S i) e 0) (fst r) = true /\ agg1_value t i <> NaN) data l.
Proof.
  intros lg norm clim e data t l O Et El. unfold plotted_series1 in El. rewrite Et in El. cbn [bind] in El. injection El as <-.
  destruct (runner1_shape _ _ _ _ _ _ _ Et) as [p [g ->]]. clear Et.
  induction data as [|r data IH]; [constructor|]. cbn [map]. constructor; [|exact IH]. clear IH.
  rewrite axis_taken_in. split.
  - intros [i [C I]]. unfold plotted in I. rewrite (in_gtab_keys nat Nat.eqb nat_eqb_spec notnan) in I by reflexivity. apply notnan_true in I.
    apply cut_some in C; [|exact O]. destruct C as [L B]. exists i. unfold nbin in L. split; [lia|]. split; [exact B|exact I].
  - intros [i [L [B V]]]. exists i. split.
    + apply cut_some; [exact O|]. unfold nbin. split; [lia|exact B].
    + unfold plotted. rewrite (in_gtab_keys nat Nat.eqb nat_eqb_spec notnan) by reflexivity. apply notnan_true. exact V.
Qed.
Theorem C75_above_threshold_1d : forall (lg : bool) norm clim (e : list R) f thr data t l, ordered e ->
  agg1 lg norm clim (map Fin e) f data = Ok t -> above_threshold1 lg norm clim (map Fin e) f thr data = Ok l ->
  Forall2 (fun r b => b = true <-> exists i, (S i < List.length e)%nat /\ inb (nth i e 0) (nth (S i) e 0) (fst r) = true /\ aleb thr (agg1_value t i) = true) data l.
Proof.
  intros lg norm clim e f thr data t l O Et El. unfold above_threshold1 in El. rewrite Et in El. cbn [bind] in El. injection El as <-.
  assert (FN : aleb thr NaN = false) by (destruct thr; reflexivity).
  destruct (runner1_shape _ _ _ _ _ _ _ Et) as [p [g ->]]. clear Et.
  induction data as [|r data IH]; [constructor|]. cbn [map]. constructor; [|exact IH]. clear IH.
  rewrite axis_taken_in. split.
  - intros [i [C I]]. unfold reaching in I. rewrite (in_gtab_keys nat Nat.eqb nat_eqb_spec (aleb thr)) in I by exact FN.
    apply cut_some in C; [|exact O]. destruct C as [L B]. exists i. unfold nbin in L. split; [lia|]. split; [exact B|exact I].
  - intros [i [L [B V]]]. exists i. split.
    + apply cut_some; [exact O|]. unfold nbin. split; [lia|exact B].
    + unfold reaching. rewrite (in_gtab_keys nat Nat.eqb nat_eqb_spec (aleb thr)) by exact FN. exact V.
Qed.
Lemma runner2_shape lx ly norm clim alim bx by_ f data : exists p g, agg2 lx ly norm clim alim bx by_ f data = gtab k2 p g (bins2 bx by_).
Proof.
  unfold agg2. rewrite runner_gtab. match goal with |- context [axis_normalizer2 lx ly norm bx by_ (gtab k2 ?p ?g ?keys)] => destruct (norm2_gtab lx ly norm bx by_ p g keys) as [g' ->] end.
  rewrite mask_gtab. eauto.
Qed.
Lemma taken2_spec (f : XR -> bool) p g ex ey r : ordered ex -> ordered ey -> f NaN = false ->
  let t := gtab k2 p g (bins2 (map Fin ex) (map Fin ey)) in
  taken2 (map fst (filter (fun kv => f (snd kv)) t)) (map Fin ex) (map Fin ey) r = true <->
  exists i j, (i < nbin ex)%nat /\ (j < nbin ey)%nat /\ cell2 ex ey i j r = true
     /\ (exists j', f (agg2_value t i j') = true) /\ (exists i', f (agg2_value t i' j) = true).
Proof.
  intros Ox Oy FN t. unfold taken2. rewrite andb_true_iff, !axis_taken_in. unfold cell2. split.
  - intros [[i [Ci Ii]] [j [Cj Ij]]]. exists i, j. apply cut_some in Ci; [|exact Ox]. apply cut_some in Cj; [|exact Oy].
    split; [apply Ci|]. split; [apply Cj|]. split; [rewrite andb_true_iff; split; [apply Ci|apply Cj]|].
    apply in_map_iff in Ii. destruct Ii as [[a b] [<- Ii]]. apply in_map_iff in Ij. destruct Ij as [[c d] [<- Ij]]. cbn [fst snd].
    apply (in_gtab_keys k2 k2_eqb k2_eqb_spec f) in Ii; [|exact FN]. apply (in_gtab_keys k2 k2_eqb k2_eqb_spec f) in Ij; [|exact FN].
    split; [exists b; exact Ii|exists c; exact Ij].
  - intros [i [j [Li [Lj [B [[j' Hj] [i' Hi]]]]]]]. apply andb_true_iff in B. destruct B as [Bi Bj]. split.
    + exists i. split; [apply cut_some; auto|]. apply in_map_iff. exists (i, j'). split; [reflexivity|].
      apply (in_gtab_keys k2 k2_eqb k2_eqb_spec f); assumption.
    + exists j. split; [apply cut_some; auto|]. apply in_map_iff. exists (i', j). split; [reflexivity|].
      apply (in_gtab_keys k2 k2_eqb k2_eqb_spec f); assumption.
Qed.
(** C75, two axes: what is selected is every datum whose column and whose row both contain a plotted bin; in particular all data in
    plotted bins. *)
Theorem C75_plotted_data_2d_partial : forall (lx ly : bool) norm clim alim (ex ey : list R) data, ordered ex -> ordered ey ->
  let t := agg2 lx ly norm clim alim (map Fin ex) (map Fin ey) FDefault data in
  Forall2 (fun r b => (b = true <-> exists i j, (i < nbin ex)%nat /\ (j < nbin ey)%nat /\ cell2 ex ey i j r = true
                                    /\ (exists j', agg2_value t i j' <> NaN) /\ (exists i', agg2_value t i' j <> NaN))
                   /\ (forall i j, (i < nbin ex)%nat -> (j < nbin ey)%nat -> cell2 ex ey i j r = true -> agg2_value t i j <> NaN -> b = true))
          data (plotted_series2 lx ly norm clim alim (map Fin ex) (map Fin ey) data).
Proof.
  intros lx ly norm clim alim ex ey data Ox Oy t. unfold plotted_series2. fold t.
  destruct (runner2_shape lx ly norm clim alim (map Fin ex) (map Fin ey) FDefault data) as [p [g E]]. fold t in E. clearbody t.
  induction data as [|r data IH]; [constructor|]. cbn [map]. constructor; [|exact IH]. clear IH.
  unfold plotted. subst t. pose proof (taken2_spec notnan p g ex ey r Ox Oy eq_refl) as TS. cbv zeta in TS.
  assert (Q : taken2 (map fst (filter (fun kv : k2 * XR => notnan (snd kv)) (gtab k2 p g (bins2 (map Fin ex) (map Fin ey))))) (map Fin ex) (map Fin ey) r = true <->
     exists i j, (i < nbin ex)%nat /\ (j < nbin ey)%nat /\ cell2 ex ey i j r = true
                                    /\ (exists j', agg2_value (gtab k2 p g (bins2 (map Fin ex) (map Fin ey))) i j' <> NaN) /\ (exists i', agg2_value (gtab k2 p g (bins2 (map Fin ex) (map Fin ey))) i' j <> NaN)).
  { rewrite TS. split; intros [i [j [A1 [A2 [A3 [[j' A4] [i' A5]]]]]]]; exists i, j; (split; [exact A1|split; [exact A2|split; [exact A3|split; [exists j'|exists i']]]]); apply notnan_true; assumption. }
  split; [exact Q|]. intros i j A1 A2 A3 A4. apply Q. exists i, j. repeat split; eauto.
Qed.
Theorem C75_above_threshold_2d_partial : forall (lx ly : bool) norm clim alim (ex ey : list R) f thr data, ordered ex -> ordered ey ->
  let t := agg2 lx ly norm clim alim (map Fin ex) (map Fin ey) f data in
  Forall2 (fun r b => (b = true <-> exists i j, (i < nbin ex)%nat /\ (j < nbin ey)%nat /\ cell2 ex ey i j r = true
                                    /\ (exists j', aleb thr (agg2_value t i j') = true) /\ (exists i', aleb thr (agg2_value t i' j) = true))
                   /\ (forall i j, (i < nbin ex)%nat -> (j < nbin ey)%nat -> cell2 ex ey i j r = true -> aleb thr (agg2_value t i j) = true -> b = true))
          data (above_threshold2 lx ly norm clim alim (map Fin ex) (map Fin ey) f thr data).
Proof.
  intros lx ly norm clim alim ex ey f thr data Ox Oy t. unfold above_threshold2. fold t.
  assert (FN : aleb thr NaN = false) by (destruct thr; reflexivity).
  destruct (runner2_shape lx ly norm clim alim (map Fin ex) (map Fin ey) f data) as [p [g E]]. fold t in E. clearbody t.
  induction data as [|r data IH]; [constructor|]. cbn [map]. constructor; [|exact IH]. clear IH.
  unfold reaching. subst t. pose proof (taken2_spec (aleb thr) p g ex ey r Ox Oy FN) as TS. cbv zeta in TS.
  split; [exact TS|]. intros i j A1 A2 A3 A4. apply TS. exists i, j. repeat split; eauto.
Qed.

(* ------------------------------------------------------------------ normalisation by the largest value *)
Definition positive_or_nan (x : XR) : Prop := x = NaN \/ exists c, x = Fin c /\ 0 < c.
Lemma group_top (q : k2 -> bool) p g keys :
  let at_ := at_key k2 k2_eqb (gtab k2 p g keys) in
  (forall k, In k keys -> positive_or_nan (at_ k)) -> (exists k, In k keys /\ q k = true /\ at_ k <> NaN) ->
  exists m, series_max (map snd (filter (fun kv : k2 * XR => q (fst kv)) (gtab k2 p g keys))) = Fin m /\ 0 < m
    /\ (exists k, In k keys /\ q k = true /\ at_ k = Fin m) /\ (forall k c, In k keys -> q k = true -> at_ k = Fin c -> c <= m).
Proof.
  intros at_ Pos [k0 [I0 [Q0 N0]]].
  set (H := fun k => match g k with Fin x => Some x | _ => None end).
  assert (A : forall k, In k keys -> at_ k = if p k then g k else NaN) by (intros k I; apply (at_gtab_in k2 k2_eqb k2_eqb_spec); exact I).
  assert (GC : forall k, In k keys -> p k = true -> g k = cell (H k)).
  { intros k I P. pose proof (Pos k I) as PK. rewrite (A k I), P in PK. unfold H. destruct PK as [->|[c [-> _]]]; reflexivity. }
  assert (T : gtab k2 p g keys = table k2 p H keys).
  { unfold gtab, table. apply map_ext_in. intros k I. apply filter_In in I. rewrite (GC k) by apply I. reflexivity. }
  rewrite T, (sub_table k2 p H keys q). set (l := map H (filter p (filter q keys))).
  assert (IN : forall k c, In k keys -> q k = true -> at_ k = Fin c -> In c (present l)).
  { intros k c I Q E. rewrite (A k I) in E. destruct (p k) eqn:P; [|discriminate]. apply present_in. unfold l. apply in_map_iff. exists k. split.
    - unfold H. rewrite E. reflexivity.
    - apply filter_In. split; [|exact P]. apply filter_In. auto. }
  destruct (Pos k0 I0) as [Z|[c0 [E0 P0]]]; [contradiction|]. pose proof (IN k0 c0 I0 Q0 E0) as IC.
  destruct (series_max_fin l) as [m [Em [T1 T2]]]; [intro Z; rewrite Z in IC; destruct IC|].
  exists m. split; [exact Em|]. split; [specialize (T2 c0 IC); lra|]. split.
  - apply present_in in T1. unfold l in T1. apply in_map_iff in T1. destruct T1 as [k [Ek I]]. apply filter_In in I. destruct I as [I P]. apply filter_In in I. destruct I as [I Q].
    exists k. split; [exact I|]. split; [exact Q|]. rewrite (A k I), P, (GC k I P), Ek. reflexivity.
  - intros k c I Q E. apply T2. eapply IN; eauto.
Qed.
Lemma div_top x m : positive_or_nan x -> 0 < m -> (forall c, x = Fin c -> c <= m) ->
  (x = NaN /\ adiv x (Fin m) = NaN) \/ (exists c, x = Fin c /\ adiv x (Fin m) = Fin (c / m) /\ 0 < c / m <= 1).
Proof.
  intros [->|[c [-> Pc]]] Pm Top; [left; split; [reflexivity|apply nan_div_l]|]. right. exists c. split; [reflexivity|]. split; [apply fin_div; lra|].
  specialize (Top c eq_refl). split; [apply Rdiv_lt_0_compat; lra|]. apply (Rmult_le_reg_r m); [lra|]. replace (c / m * m) with c by (field; lra). lra.
Qed.
(** In the group of bins where [q] holds: each value is its unnormalised value over the largest one of the group; so it is in (0, 1] and 1 is attained. *)
Definition scaled_by_largest (q : nat -> nat -> Prop) (nx ny : nat) (t0 t : nat -> nat -> XR) : Prop :=
  exists m, 0 < m /\ (exists i j, (i < nx)%nat /\ (j < ny)%nat /\ q i j /\ t0 i j = Fin m /\ t i j = Fin 1)
  /\ forall i j, (i < nx)%nat -> (j < ny)%nat -> q i j -> t i j = adiv (t0 i j) (Fin m) /\ (t0 i j <> NaN -> exists v, t i j = Fin v /\ 0 < v <= 1).
Lemma scaled_group lx ly norm ex ey clim f data (qb : k2 -> k2 -> bool) :
  (forall t, axis_normalizer2 lx ly norm (map Fin ex) (map Fin ey) t = divide_by k2 (fun k => series_max (map snd (filter (fun kv : k2 * XR => qb k (fst kv)) t))) t) ->
  (forall a b c, qb a b = true -> qb a c = qb b c) -> 
  let t0 := agg2 lx ly N2None clim nolim (map Fin ex) (map Fin ey) f data in
  let t := agg2 lx ly norm clim nolim (map Fin ex) (map Fin ey) f data in
  (forall i j, positive_or_nan (agg2_value t0 i j)) ->
  forall k0, (exists i j, (i < nbin ex)%nat /\ (j < nbin ey)%nat /\ qb k0 (i, j) = true /\ agg2_value t0 i j <> NaN) ->
  scaled_by_largest (fun i j => qb k0 (i, j) = true) (nbin ex) (nbin ey) (agg2_value t0) (agg2_value t).
Proof.
  intros Norm Eqv t0 t Pos k0 [i1 [j1 [L1 [L2 [Q1 N1]]]]].
  unfold t0, agg2 in Pos, N1. unfold t0, t, agg2. rewrite no_alim in Pos, N1. rewrite !no_alim. rewrite Norm. unfold axis_normalizer2 at 1. unfold axis_normalizer2 in Pos, N1.
  rewrite runner_gtab, bins2_grid in *. set (p := is_observed _ _ _) in *. set (g := fun k : k2 => if within clim _ then _ else _) in *. clearbody p g. clear t0 t.
  destruct (group_top (qb k0) p g (grid ex ey)) as [m [Em [Pm [[km [Im [Qm Am]]] Top]]]].
  { intros [i j] I. apply Pos. }
  { exists (i1, j1). split; [apply in_grid; auto|]. auto. }
  assert (V : forall i j, (i < nbin ex)%nat -> (j < nbin ey)%nat -> qb k0 (i, j) = true ->
    agg2_value (divide_by k2 (fun k => series_max (map snd (filter (fun kv : k2 * XR => qb k (fst kv)) (gtab k2 p g (grid ex ey))))) (gtab k2 p g (grid ex ey))) i j
    = adiv (agg2_value (gtab k2 p g (grid ex ey)) i j) (Fin m)).
  { intros i j Li Lj Q. rewrite divide_gtab. unfold agg2_value. rewrite !(at_gtab_in k2 k2_eqb k2_eqb_spec) by (apply in_grid; auto).
    destruct (p (i, j)); [|symmetry; apply nan_div_l]. f_equal.
    transitivity (series_max (map snd (filter (fun kv : k2 * XR => qb k0 (fst kv)) (gtab k2 p g (grid ex ey))))); [|exact Em].
    do 2 f_equal. apply filter_ext. intros [k v]. cbn [fst]. symmetry. apply Eqv. exact Q. }
  assert (W : forall i j, (i < nbin ex)%nat -> (j < nbin ey)%nat -> qb k0 (i, j) = true ->
    (agg2_value (gtab k2 p g (grid ex ey)) i j = NaN /\ adiv (agg2_value (gtab k2 p g (grid ex ey)) i j) (Fin m) = NaN)
    \/ (exists c, agg2_value (gtab k2 p g (grid ex ey)) i j = Fin c /\ adiv (agg2_value (gtab k2 p g (grid ex ey)) i j) (Fin m) = Fin (c / m) /\ 0 < c / m <= 1)).
  { intros i j Li Lj Q. apply div_top; [apply Pos|exact Pm|]. intros c E. apply (Top (i, j)); auto. apply in_grid. auto. }
  exists m. split; [exact Pm|]. split.
  - destruct km as [i j]. apply in_grid in Im. exists i, j. split; [apply Im|]. split; [apply Im|]. split; [exact Qm|]. split; [exact Am|].
    rewrite V by tauto. unfold agg2_value. rewrite Am, fin_div by lra. f_equal. field. lra.
  - intros i j Li Lj Q. rewrite V by assumption. split; [reflexivity|]. intro NN. destruct (W i j Li Lj Q) as [[Z _]|[c [Ec [-> B]]]]; [contradiction|]. eauto.
Qed.
(** C73 *)
Theorem C73_column_normalised : forall (lx ly : bool) (ex ey : list R) clim f data,
  let t0 := agg2 lx ly N2None clim nolim (map Fin ex) (map Fin ey) f data in
  let t := agg2 lx ly N2Col clim nolim (map Fin ex) (map Fin ey) f data in
  (forall i j, positive_or_nan (agg2_value t0 i j)) ->
  forall i0, (i0 < nbin ex)%nat -> (exists j, (j < nbin ey)%nat /\ agg2_value t0 i0 j <> NaN) ->
  scaled_by_largest (fun i _ => i = i0) (nbin ex) (nbin ey) (agg2_value t0) (agg2_value t).
Proof.
  intros lx ly ex ey clim f data t0 t Pos i0 L0 [j0 [Lj N0]].
  destruct (scaled_group lx ly N2Col ex ey clim f data (fun k k' => Nat.eqb (fst k') (fst k)) (fun t => eq_refl)) with (k0 := (i0, 0%nat)) as [m [Pm [[i [j [Li [Lj' [Q [E1 E2]]]]]] A]]].
  - intros [a1 a2] [b1 b2] [c1 c2] E. cbn [fst] in *. apply Nat.eqb_eq in E. subst. reflexivity.
  - exact Pos.
  - exists i0, j0. cbn [fst]. rewrite Nat.eqb_refl. auto.
  - exists m. split; [exact Pm|]. cbn [fst] in *. split.
    + exists i, j. apply Nat.eqb_eq in Q. auto.
    + intros i' j' Li' Lj'' ->. apply A; [assumption|assumption|apply Nat.eqb_refl].
Qed.
Theorem C73_row_normalised : forall (lx ly : bool) (ex ey : list R) clim f data,
  let t0 := agg2 lx ly N2None clim nolim (map Fin ex) (map Fin ey) f data in
  let t := agg2 lx ly N2Row clim nolim (map Fin ex) (map Fin ey) f data in
  (forall i j, positive_or_nan (agg2_value t0 i j)) ->
  forall j0, (j0 < nbin ey)%nat -> (exists i, (i < nbin ex)%nat /\ agg2_value t0 i j0 <> NaN) ->
  scaled_by_largest (fun _ j => j = j0) (nbin ex) (nbin ey) (agg2_value t0) (agg2_value t).
Proof.
  intros lx ly ex ey clim f data t0 t Pos j0 L0 [i0 [Li N0]].
  destruct (scaled_group lx ly N2Row ex ey clim f data (fun k k' => Nat.eqb (snd k') (snd k)) (fun t => eq_refl)) with (k0 := (0%nat, j0)) as [m [Pm [[i [j [Li' [Lj' [Q [E1 E2]]]]]] A]]].
  - intros [a1 a2] [b1 b2] [c1 c2] E. cbn [snd] in *. apply Nat.eqb_eq in E. subst. reflexivity.
  - exact Pos.
  - exists i0, j0. cbn [snd]. rewrite Nat.eqb_refl. auto.
  - exists m. split; [exact Pm|]. cbn [snd] in *. split.
    + exists i, j. apply Nat.eqb_eq in Q. auto.
    + intros i' j' Li'' Lj'' ->. apply A; [assumption|assumption|apply Nat.eqb_refl].
Qed.
Lemma filter_yes {X} (l : list X) : filter (fun _ => true) l = l.
Proof. induction l as [|x l IH]; [reflexivity|]. cbn. rewrite IH. reflexivity. Qed.
Theorem C73_total_normalised : forall (lx ly : bool) (ex ey : list R) clim f data,
  let t0 := agg2 lx ly N2None clim nolim (map Fin ex) (map Fin ey) f data in
  let t := agg2 lx ly N2Total clim nolim (map Fin ex) (map Fin ey) f data in
  (forall i j, positive_or_nan (agg2_value t0 i j)) ->
  (exists i j, (i < nbin ex)%nat /\ (j < nbin ey)%nat /\ agg2_value t0 i j <> NaN) ->
  scaled_by_largest (fun _ _ => True) (nbin ex) (nbin ey) (agg2_value t0) (agg2_value t).
Proof.
  intros lx ly ex ey clim f data t0 t Pos [i0 [j0 [Li [Lj N0]]]].
  destruct (scaled_group lx ly N2Total ex ey clim f data (fun _ _ => true)) with (k0 := (0%nat, 0%nat)) as [m [Pm [[i [j [Li' [Lj' [Q [E1 E2]]]]]] A]]].
  - intro t1. unfold axis_normalizer2, values. rewrite filter_yes. reflexivity.
  - reflexivity.
  - exact Pos.
  - exists i0, j0. auto.
  - exists m. split; [exact Pm|]. split.
    + exists i, j. auto.
    + intros i' j' Li'' Lj'' _. apply A; auto.
Qed.
(** Plain counts are such a positive aggregate. *)
Lemma counts2_value lx ly ex ey data clim f i j : ordered ex -> ordered ey -> unweighted data -> (f = FDefault \/ f = FCount) -> (i < nbin ex)%nat -> (j < nbin ey)%nat ->
  agg2_value (agg2 lx ly N2None clim nolim (map Fin ex) (map Fin ey) f data) i j = cell (limited clim (tally (cell2 ex ey i j) data)).
Proof.
  intros Ox Oy U Hf Li Lj. destruct (hist2_table ex ey data clim Ox Oy U) as [p [H [D [Sup [HH _]]]]].
  unfold agg2, axis_normalizer2. rewrite no_alim, (D f Hf). unfold agg2_value. rewrite (at_table k2 k2_eqb k2_eqb_spec) by (auto; apply in_grid; auto). rewrite HH by assumption. reflexivity.
Qed.
Theorem C73_counts_are_positive : forall (lx ly : bool) (ex ey : list R) xs ys data clim f, ordered ex -> ordered ey -> (f = FDefault \/ f = FCount) ->
  set_data2 lx ly xs ys None = Ok data ->
  forall i j, positive_or_nan (agg2_value (agg2 lx ly N2None clim nolim (map Fin ex) (map Fin ey) f data) i j).
Proof.
  intros lx ly ex ey xs ys data clim f Ox Oy Hf SD i j. pose proof (set_data2_unweighted _ _ _ _ _ SD) as U.
  destruct (lt_dec i (nbin ex)) as [Li|Li]; [destruct (lt_dec j (nbin ey)) as [Lj|Lj]|].
  - rewrite counts2_value by assumption. destruct (limited clim (tally (cell2 ex ey i j) data)) as [c|] eqn:E; [|left; reflexivity].
    apply limited_pos in E. right. exists c. split; [reflexivity|lra].
  - left. destruct (runner2_shape lx ly N2None clim nolim (map Fin ex) (map Fin ey) f data) as [p [g ->]]. unfold agg2_value. rewrite (at_gtab k2 k2_eqb k2_eqb_spec), bins2_grid.
    replace (existsb _ (grid ex ey)) with false; [rewrite andb_false_r; reflexivity|]. symmetry. apply not_true_is_false. intro I. apply (in_keys k2 k2_eqb k2_eqb_spec) in I. apply in_grid in I. lia.
  - left. destruct (runner2_shape lx ly N2None clim nolim (map Fin ex) (map Fin ey) f data) as [p [g ->]]. unfold agg2_value. rewrite (at_gtab k2 k2_eqb k2_eqb_spec), bins2_grid.
    replace (existsb _ (grid ex ey)) with false; [rewrite andb_false_r; reflexivity|]. symmetry. apply not_true_is_false. intro I. apply (in_keys k2 k2_eqb k2_eqb_spec) in I. apply in_grid in I. lia.
Qed.

(* ------------------------------------------------------------------ witnesses and refutations *)
Ltac decb := repeat match goal with
  | |- context [Rltb ?a ?b] => first [rewrite (proj2 (Rltb_true a b)) by lra | rewrite (proj2 (Rltb_false a b)) by lra]
  | |- context [Rleb ?a ?b] => first [rewrite (proj2 (Rleb_true a b)) by lra | rewrite (proj2 (Rleb_false a b)) by lra]
  end.
Lemma strictly_012 : strictly [0; 1; 2].
Proof. intros i j H. cbn [List.length] in H. destruct j as [|[|[|j]]]; [| | |lia]; destruct i as [|[|[|i]]]; try lia; cbn; lra. Qed.
Lemma counts1_value lg e xs clim f t i : ordered e -> (f = FDefault \/ f = FCount) -> (i < nbin e)%nat ->
  agg1 lg N1None clim (map Fin e) f (set_data1 lg xs None) = Ok t -> agg1_value t i = cell (limited clim (filled lg e xs i)).
Proof.
  intros O Hf L E. assert (E2 : t = agg_runner nat Nat.eqb (bins (map Fin e)) clim f (rows1 (map Fin e) (set_data1 lg xs None))).
  { destruct Hf as [-> | ->]; unfold agg1, axis_normalizer1 in E; injection E as <-; reflexivity. }
  destruct (hist1_table lg e xs clim O) as [p [H [D [Sup [HH _]]]]]. rewrite (D f Hf) in E2. rewrite E2. unfold agg1_value.
  rewrite (at_table nat Nat.eqb nat_eqb_spec) by (auto; apply in_seq; lia). rewrite HH by exact L. reflexivity.
Qed.
Definition at_least_two : option XR * option XR := (Some (Fin 2), None).
Lemma limited_two n : limited at_least_two n = if Nat.leb 2 n then Some (INR n) else None.
Proof.
  unfold limited, within, at_least_two. cbn [fst snd]. rewrite fin_leb, andb_true_r. destruct n as [|[|n]]; [reflexivity| |].
  - cbn [Nat.eqb Nat.leb]. change (INR 1) with 1. decb. reflexivity.
  - cbn [Nat.eqb Nat.leb]. replace (Rleb 2 (INR (S (S n)))) with true; [reflexivity|]. symmetry. apply Rleb_true. apply (le_INR 2). lia.
Qed.
Lemma filled_012 : filled false [0; 1; 2] [Fin 1; Fin 2; Fin 2] 0 = 1%nat /\ filled false [0; 1; 2] [Fin 1; Fin 2; Fin 2] 1 = 2%nat.
Proof. unfold filled, tally, bin, coord, inb. cbn [nth filter]. split; decb; cbn [andb]; reflexivity. Qed.
(** C72: a concrete case; C74: with a normalisation the limits do change the bins that remain (2/3 becomes 1). *)
Theorem C72_witness : exists t, agg1 false N1Density nolim (map Fin [0; 1; 2]) FDefault (set_data1 false [Fin 1; Fin 2; Fin 2] None) = Ok t
  /\ strictly [0; 1; 2] /\ agg1_value t 0 = Fin (1/3) /\ agg1_value t 1 = Fin (2/3).
Proof.
  destruct filled_012 as [F0 F1].
  eexists. split; [reflexivity|]. split; [apply strictly_012|].
  destruct (density1_value false [0; 1; 2] [Fin 1; Fin 2; Fin 2] nolim FDefault _ strictly_012 (or_introl eq_refl) eq_refl) as [V _]. cbv zeta in V.
  split; (rewrite V by (cbn; lia)); cbn [nbin seq map Nat.sub List.length]; rewrite F0, F1; cbn; f_equal; unfold wid; cbn; field.
Qed.
Theorem C74_normalised_refuted : exists e xs clim t t0 n i, strictly e
  /\ agg1 false N1Density clim (map Fin e) FDefault (set_data1 false xs None) = Ok t
  /\ agg1 false N1Density nolim (map Fin e) FDefault (set_data1 false xs None) = Ok t0
  /\ agg1 false N1None nolim (map Fin e) FCount (set_data1 false xs None) = Ok n
  /\ inlim clim (agg1_value n i) /\ agg1_value t0 i = Fin (2/3) /\ agg1_value t i = Fin 1.
Proof.
  destruct filled_012 as [F0 F1].
  exists [0; 1; 2], [Fin 1; Fin 2; Fin 2], at_least_two. do 3 eexists. exists 1%nat.
  split; [apply strictly_012|]. split; [reflexivity|]. split; [reflexivity|]. split; [reflexivity|]. split; [|split].
  - rewrite (counts1_value false [0; 1; 2] [Fin 1; Fin 2; Fin 2] nolim FCount _ 1 (strictly_ordered _ strictly_012) (or_intror eq_refl)); [|cbn; lia|reflexivity].
    rewrite F1. apply within_iff. change (aleb (Fin 2) (Fin (INR 2)) && true = true). rewrite fin_leb, andb_true_r. cbn [INR]. decb. reflexivity.
  - destruct (density1_value false [0; 1; 2] [Fin 1; Fin 2; Fin 2] nolim FDefault _ strictly_012 (or_introl eq_refl) eq_refl) as [V _]. cbv zeta in V.
    rewrite V by (cbn; lia). cbn [nbin seq map Nat.sub List.length]. rewrite F0, F1. cbn. f_equal. unfold wid. cbn. field.
  - destruct (density1_value false [0; 1; 2] [Fin 1; Fin 2; Fin 2] at_least_two FDefault _ strictly_012 (or_introl eq_refl) eq_refl) as [V _]. cbv zeta in V.
    rewrite V by (cbn; lia). cbn [nbin seq map Nat.sub List.length]. rewrite F0, F1, !limited_two. cbn. f_equal. unfold wid. cbn. field.
Qed.
(** C75: two axes. Five points; the bin of the last holds one point and is masked, yet the point is selected. *)
Definition five : list (XR * XR * XR) :=
  [(Fin 1, Fin 1, Fin 1); (Fin 1, Fin 1, Fin 1); (Fin 2, Fin 2, Fin 1); (Fin 2, Fin 2, Fin 1); (Fin 1, Fin 2, Fin 1)].
Lemma five_cells : tally (cell2 [0;1;2] [0;1;2] 0 0) five = 2%nat /\ tally (cell2 [0;1;2] [0;1;2] 0 1) five = 1%nat /\ tally (cell2 [0;1;2] [0;1;2] 1 1) five = 2%nat.
Proof. unfold tally, cell2, five, bin, inb. cbn [nth filter fst snd]. split; [|split]; decb; cbn [andb]; reflexivity. Qed.
Theorem C75_two_axes_refuted : exists ex ey data clim r i j,
  strictly ex /\ strictly ey /\ unweighted data /\
  let t := agg2 false false N2None clim nolim (map Fin ex) (map Fin ey) FDefault data in
  nth_error data 4 = Some r /\ (i < nbin ex)%nat /\ (j < nbin ey)%nat /\ cell2 ex ey i j r = true
  /\ agg2_value t i j = NaN
  /\ nth_error (plotted_series2 false false N2None clim nolim (map Fin ex) (map Fin ey) data) 4 = Some true.
Proof.
  destruct five_cells as [F0 [F1 F2]].
  assert (U : unweighted five) by (intros r I; repeat (destruct I as [<-|I]; [reflexivity|]); destruct I).
  assert (O : ordered [0; 1; 2]) by (apply strictly_ordered, strictly_012).
  exists [0;1;2], [0;1;2], five, at_least_two, (Fin 1, Fin 2, Fin 1), 0%nat, 1%nat.
  split; [apply strictly_012|]. split; [apply strictly_012|]. split; [exact U|]. intro t.
  assert (B : cell2 [0; 1; 2] [0; 1; 2] 0 1 (Fin 1, Fin 2, Fin 1) = true) by (unfold cell2, bin, inb; cbn [nth fst snd]; decb; reflexivity).
  split; [reflexivity|]. split; [cbn; lia|]. split; [cbn; lia|]. split; [exact B|]. split.
  - unfold t. rewrite counts2_value by (auto; cbn; lia). rewrite F1, limited_two. reflexivity.
  - pose proof (C75_plotted_data_2d_partial false false N2None at_least_two nolim [0;1;2] [0;1;2] five O O) as P. cbv zeta in P.
    assert (X : exists b, nth_error (plotted_series2 false false N2None at_least_two nolim (map Fin [0;1;2]) (map Fin [0;1;2]) five) 4 = Some b) by (unfold plotted_series2; rewrite nth_error_map; eexists; reflexivity).
    destruct X as [b Eb]. rewrite Eb. f_equal.
    assert (FN : forall {X Y} (Q : X -> Y -> Prop) l m, Forall2 Q l m -> forall k x y, nth_error l k = Some x -> nth_error m k = Some y -> Q x y).
    { clear. intros X Y Q l m F. induction F as [|x y l m Qxy F IH]; intros [|k] a b A1 A2; try discriminate; cbn in *; [injection A1 as <-; injection A2 as <-; exact Qxy|eapply IH; eauto]. }
    destruct (FN _ _ _ _ _ P 4%nat (Fin 1, Fin 2, Fin 1) b eq_refl Eb) as [Q _]. apply Q. exists 0%nat, 1%nat.
    split; [cbn; lia|]. split; [cbn; lia|]. split; [exact B|]. split.
    + exists 0%nat. rewrite counts2_value by (auto; cbn; lia). rewrite F0, limited_two. discriminate.
    + exists 1%nat. rewrite counts2_value by (auto; cbn; lia). rewrite F2, limited_two. discriminate.
Qed.
(** Without limits and normalisation the selection is exact on two axes too. *)
Theorem C75_plotted_counts_2d : forall (lx ly : bool) (ex ey : list R) xs ys data, ordered ex -> ordered ey ->
  set_data2 lx ly xs ys None = Ok data ->
  let t := agg2 lx ly N2None nolim nolim (map Fin ex) (map Fin ey) FDefault data in
  Forall2 (fun r b => b = true <-> exists i j, (i < nbin ex)%nat /\ (j < nbin ey)%nat /\ cell2 ex ey i j r = true /\ agg2_value t i j <> NaN)
          data (plotted_series2 lx ly N2None nolim nolim (map Fin ex) (map Fin ey) data).
Proof.
  intros lx ly ex ey xs ys data Ox Oy SD t. pose proof (set_data2_unweighted _ _ _ _ _ SD) as U.
  pose proof (C75_plotted_data_2d_partial lx ly N2None nolim nolim ex ey data Ox Oy) as P. cbv zeta in P. fold t in P.
  assert (V : forall r i j, In r data -> (i < nbin ex)%nat -> (j < nbin ey)%nat -> cell2 ex ey i j r = true -> agg2_value t i j <> NaN).
  { intros r i j I Li Lj B. unfold t. rewrite counts2_value by auto.
    assert (N : tally (cell2 ex ey i j) data <> 0%nat).
    { unfold tally. intro Z. apply length_zero_iff_nil in Z. assert (J : In r (filter (cell2 ex ey i j) data)) by (apply filter_In; auto). rewrite Z in J. destruct J. }
    unfold limited. apply Nat.eqb_neq in N. rewrite N. discriminate. }
  clearbody t. revert P V. generalize (plotted_series2 lx ly N2None nolim nolim (map Fin ex) (map Fin ey) data). clear SD U.
  induction data as [|r data IH]; intros l P V; inversion P as [|? b ? l' Q P']; subst; constructor.
  - destruct Q as [Q1 Q2]. split.
    + intro Hb. apply Q1 in Hb. destruct Hb as [i [j [A1 [A2 [A3 _]]]]]. exists i, j. split; [exact A1|]. split; [exact A2|]. split; [exact A3|]. apply (V r); auto. left. reflexivity.
    + intros [i [j [A1 [A2 [A3 A4]]]]]. eapply Q2; eauto.
  - apply IH; [exact P'|]. intros r' i j I. apply V. right. exact I.
Qed.
