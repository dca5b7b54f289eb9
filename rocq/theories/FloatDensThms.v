(** Probability densities in double precision: normalised histograms integrate to one up to a few roundings, however many bins there are. *)
From Coq Require Import Reals Lra List Bool ZArith Lia Psatz.
From Flocq Require Import Core.Core Relative IEEE754.BinarySingleNaN.
From Verif Require Import Py Num NumB64 Sort Activity Hist HistThms Float64Thms FloatErrorThms FloatHistThms.
Import ListNotations.
Open Scope R_scope.

(* ------------------------------------------------------------------ specification *)
(** what a bin contributes: nothing where nothing is shown *)
Definition shown (x : b64) : R := if is_nan x then 0 else B2R x.
(** the true width of bin number [i] *)
Definition gap (e : list b64) (i : nat) : R := B2R (nth (S i) e B754_nan) - B2R (nth i e B754_nan).
(** finite edges, increasing by steps of ordinary size *)
Definition fair_edges (e : list b64) : Prop :=
  (forall x, In x e -> is_finite x = true) /\ forall i, (S i < List.length e)%nat -> bpow radix2 (-400) <= gap e i <= bpow radix2 400.

(* ------------------------------------------------------------------ whole numbers *)
Lemma near_int (x : b64) (n : nat) : is_finite x = true -> B2R x = INR n -> (1 <= n)%nat -> (Z.of_nat n < 2 ^ 53)%Z -> near 0 53 x (INR n).
Proof.
  intros F V L U. split; [exact F|]. rewrite V. cbn [pow]. split; [|lra]. apply le_INR in L. cbn [INR] in L.
  assert (bpow radix2 (- (53)) <= 1) by (change 1 with (bpow radix2 0); apply bpow_le; lia). split; [lra|].
  rewrite INR_IZR_INZ. rewrite <- IZR_Zpower by lia. apply IZR_le. change (radix2 ^ 53)%Z with (2 ^ 53)%Z. lia.
Qed.
Lemma add_int (x y : b64) n m : is_finite x = true -> is_finite y = true -> B2R x = INR n -> B2R y = INR m -> (Z.of_nat (n + m) < 2 ^ 53)%Z ->
  is_finite (aadd x y) = true /\ B2R (aadd x y) = INR (n + m).
Proof.
  intros Fx Fy X Y L. destruct (bZ_ok (Z.of_nat (n + m)) ltac:(lia)) as [F V].
  assert (E : rnd (B2R x + B2R y) = INR (n + m)).
  { replace (B2R x + B2R y) with (B2R (bZ (Z.of_nat (n + m)))); [rewrite rnd_id, V, INR_IZR_INZ; reflexivity|]. rewrite V, X, Y, <- plus_INR, INR_IZR_INZ. reflexivity. }
  destruct (add_fin x y Fx Fy) as [[_ [G Q]]|[G _]].
  - split; [exact G|]. rewrite Q. exact E.
  - rewrite E in G. pose proof (B2R_lt (bZ (Z.of_nat (n + m)))) as B. rewrite V, <- INR_IZR_INZ in B. lra.
Qed.
Lemma list_sum_cons n l : list_sum (n :: l) = (n + list_sum l)%nat. Proof. reflexivity. Qed.
(** entries of a table of counts *)
Definition entry (x : b64) (n : nat) : Prop := (is_nan x = true /\ n = 0%nat) \/ (is_finite x = true /\ B2R x = INR n /\ (1 <= n)%nat).
Lemma sum_entries (l : list b64) (c : list nat) : Forall2 entry l c -> forall a s, is_finite a = true -> B2R a = INR s -> (Z.of_nat (s + list_sum c) < 2 ^ 53)%Z ->
  is_finite (fold_left (fun acc x => if aisnan x then acc else aadd acc x) l a) = true /\ B2R (fold_left (fun acc x => if aisnan x then acc else aadd acc x) l a) = INR (s + list_sum c).
Proof.
  induction 1 as [|x n l c E F IH]; intros a s Fa Va L; [rewrite Nat.add_0_r; auto|]. cbn [fold_left]. rewrite list_sum_cons in L |- *.
  destruct E as [[N ->]|[Fx [Vx _]]].
  - change (aisnan x) with (is_nan x). rewrite N. apply IH; assumption.
  - change (aisnan x) with (is_nan x). replace (is_nan x) with false by (destruct x; try discriminate; reflexivity). destruct (add_int a x s n Fa Fx Va Vx) as [F' V']; [lia|].
    rewrite Nat.add_assoc. apply IH; [exact F'|exact V'|lia].
Qed.
Lemma sum_skip_entries (l : list b64) (c : list nat) : Forall2 entry l c -> (Z.of_nat (list_sum c) < 2 ^ 53)%Z ->
  is_finite (sum_skip l) = true /\ B2R (sum_skip l) = INR (list_sum c).
Proof. intros F L. apply (sum_entries l c F a0 0%nat); [apply zero64|apply zero64|exact L]. Qed.

(* ------------------------------------------------------------------ the sum over the bins *)
Lemma integral {K} (l : list K) (x : K -> b64) (w : K -> R) (n : K -> nat) k e : (k <= 1000)%nat -> (0 < list_sum (map n l))%nat ->
  (forall q, In q l -> n q = 0%nat \/ 0 < w q) ->
  (forall q, In q l -> (is_nan (x q) = true /\ n q = 0%nat) \/ near k e (x q) (INR (n q) / (w q * INR (list_sum (map n l))))) ->
  Rabs (Rsum (map (fun q => shown (x q) * w q) l) - 1) <= INR k * bpow radix2 (-52).
Proof.
  intros K1 P W H. set (N := INR (list_sum (map n l))) in *. assert (N0 : 0 < N) by (apply lt_0_INR, P).
  assert (G : forall m, incl m l -> Rabs (Rsum (map (fun q => shown (x q) * w q) m) - INR (list_sum (map n m)) / N) <= INR k * bpow radix2 (-52) * (INR (list_sum (map n m)) / N)).
  { induction m as [|q m IH]; intro I; [cbn; replace (0 - 0 / N) with 0 by (field; lra); replace (0 / N) with 0 by (field; lra); rewrite Rabs_R0; lra|].
    assert (Iq : In q l) by (apply I; left; reflexivity). assert (Im : incl m l) by (intros z J; apply I; right; exact J). specialize (IH Im).
    cbn [map Rsum]. rewrite list_sum_cons. rewrite plus_INR. set (M := INR (list_sum (map n m))) in *. set (S1 := Rsum (map (fun q => shown (x q) * w q) m)) in *.
    assert (T : Rabs (shown (x q) * w q - INR (n q) / N) <= INR k * bpow radix2 (-52) * (INR (n q) / N)).
    { destruct (H q Iq) as [[Nn Z]|Nr].
      - unfold shown. rewrite Nn, Z. cbn [INR]. replace (0 * w q - 0 / N) with 0 by (field; lra). replace (0 / N) with 0 by (field; lra). rewrite Rabs_R0. lra.
      - assert (Wq : 0 < w q). { destruct (W q Iq) as [Z|Z]; [|exact Z]. destruct (near_pos _ _ _ _ Nr) as [B _]. rewrite Z in B. cbn [INR] in B. unfold Rdiv in B. rewrite Rmult_0_l in B. lra. }
        destruct (near_pos _ _ _ _ Nr) as [B _]. destruct (near_within _ _ _ _ K1 Nr) as [F D]. unfold shown. replace (is_nan (x q)) with false by (destruct (x q); try discriminate; reflexivity).
        rewrite (Rabs_pos_eq (INR (n q) / (w q * N))) in D by lra.
        replace (B2R (x q) * w q - INR (n q) / N) with ((B2R (x q) - INR (n q) / (w q * N)) * w q) by (field; split; lra). rewrite Rabs_mult, (Rabs_pos_eq (w q)) by lra.
        replace (INR k * bpow radix2 (-52) * (INR (n q) / N)) with (INR k * bpow radix2 (-52) * (INR (n q) / (w q * N)) * w q) by (field; split; lra). apply Rmult_le_compat_r; lra. }
    replace (shown (x q) * w q + S1 - (INR (n q) + M) / N) with ((shown (x q) * w q - INR (n q) / N) + (S1 - M / N)) by (field; lra).
    replace (INR k * bpow radix2 (-52) * ((INR (n q) + M) / N)) with (INR k * bpow radix2 (-52) * (INR (n q) / N) + INR k * bpow radix2 (-52) * (M / N)) by (field; lra).
    eapply Rle_trans; [apply Rabs_triang|]. lra. }
  specialize (G l (incl_refl l)). fold N in G. replace (N / N) with 1 in G by (field; lra). lra.
Qed.

(* ------------------------------------------------------------------ tables of counts *)
Section Counts.
  Context {K : Type}.
  Variable ke : K -> K -> bool.
  Hypothesis ke_spec : forall a b, ke a b = true <-> a = b.
  Definition hit (r : option K * b64) (k : K) : bool := match fst r with Some q => ke q k | None => false end.
  Lemma members_cons r (rows : list (option K * b64)) (k : K) : List.length (members K ke (r :: rows) k) = ((if hit r k then 1 else 0) + List.length (members K ke rows k))%nat.
  Proof. unfold members, hit. rewrite !map_length. cbn [filter]. destruct (match fst r with Some q => ke q k | None => false end); reflexivity. Qed.
  Lemma hits_once r (keys : list K) : NoDup keys -> (list_sum (map (fun k => if hit r k then 1 else 0) keys) <= 1)%nat.
  Proof.
    intro ND. unfold hit. destruct (fst r) as [q|]; [|induction keys; cbn; [lia|apply IHkeys; apply NoDup_cons_iff in ND; apply ND]].
    induction keys as [|k keys IH]; [cbn; lia|]. apply NoDup_cons_iff in ND. destruct ND as [N ND]. cbn [map]; rewrite list_sum_cons.
    destruct (ke q k) eqn:E; [|apply IH, ND]. apply ke_spec in E. subst q. assert (Z : list_sum (map (fun k0 => if ke k k0 then 1 else 0) keys)%nat = 0%nat); [|lia].
    clear IH ND. induction keys as [|k' keys IH]; [reflexivity|]. cbn [map]; rewrite list_sum_cons.
    destruct (ke k k') eqn:E; [apply ke_spec in E; subst k'; destruct N; left; reflexivity|]. apply IH. intro I. apply N. right. exact I.
  Qed.
  Lemma members_total (rows : list (option K * b64)) (keys : list K) : NoDup keys -> (list_sum (map (fun k => List.length (members K ke rows k)) keys) <= List.length rows)%nat.
  Proof.
    intro ND. induction rows as [|r rows IH].
    - cbn. clear. induction keys; cbn; auto.
    - rewrite (map_ext _ (fun k => (if hit r k then 1 else 0) + List.length (members K ke rows k))%nat) by (intro; apply members_cons). cbn [List.length].
      assert (A : forall l, list_sum (map (fun k => (if hit r k then 1 else 0) + List.length (members K ke rows k))%nat l) = (list_sum (map (fun k => if hit r k then 1 else 0) l) + list_sum (map (fun k => List.length (members K ke rows k)) l))%nat).
      { induction l as [|k l IHl]; [reflexivity|]. cbn [map]. rewrite ?list_sum_cons. rewrite IHl. lia. }
      rewrite A. pose proof (hits_once r keys ND). lia.
  Qed.
  Definition shown_count (lim : option b64 * option b64) (rows : list (option K * b64)) (k : K) : nat :=
    if is_observed K ke rows k && Hist.within lim (count (members K ke rows k)) then List.length (members K ke rows k) else 0%nat.
  Variable rows : list (option K * b64).
  Hypothesis ones : forall r, In r rows -> snd r = a1.
  Hypothesis few : countable rows.
  Lemma members_notnan k : filter notnan (members K ke rows k) = members K ke rows k.
  Proof.
    assert (A : forall x, In x (members K ke rows k) -> notnan x = true).
    { intros x I. unfold members in I. apply in_map_iff in I. destruct I as [r [<- I]]. apply filter_In in I. rewrite (ones r (proj1 I)). apply one_notnan. }
    induction (members K ke rows k) as [|x l IH]; [reflexivity|]. cbn [filter]. rewrite (A x (or_introl eq_refl)). f_equal. apply IH. intros y I. apply A. right. exact I.
  Qed.
  Lemma default_is_count (keys : list K) lim : agg_runner K ke keys lim FDefault rows = agg_runner K ke keys lim FCount rows.
  Proof.
    destruct rows as [|r0 rs] eqn:D.
    - unfold agg_runner, group_agg. rewrite (filter_ext _ (fun _ => false)) by reflexivity. assert (E : forall l : list K, filter (fun _ => false) l = []) by (induction l; auto). rewrite E. reflexivity.
    - unfold agg_runner, the_fcn, group_agg. rewrite <- D in *. replace (List.length (distinct (filter notnan (map snd rows)))) with 1%nat; [reflexivity|].
      assert (S1 : map snd rows = map (fun _ => a1) rows) by (apply map_ext_in; exact ones). rewrite S1.
      replace (filter notnan (map (fun _ => (a1 : b64)) rows)) with (map (fun _ => (a1 : b64)) rows).
      + rewrite distinct_same with (z := a1); [reflexivity|apply one_eqb|rewrite D; discriminate|]. intros x I. apply in_map_iff in I. destruct I as [? [<- _]]. reflexivity.
      + clear. induction rows as [|r l IH]; [reflexivity|]. cbn [map filter]. rewrite one_notnan. f_equal. exact IH.
  Qed.
  Variable keys : list K.
  Hypothesis nodup : NoDup keys.
  Variable lim : option b64 * option b64.
  Let tb := agg_runner K ke keys lim FCount rows.
  Lemma tb_eq : tb = map (fun k => (k, if Hist.within lim (count (members K ke rows k)) then count (members K ke rows k) else anan)) (filter (is_observed K ke rows) keys).
  Proof. unfold tb, agg_runner, group_agg, the_fcn. rewrite map_map. reflexivity. Qed.
  Lemma shown_total l : incl l keys -> NoDup l -> (Z.of_nat (list_sum (map (shown_count lim rows) l)) < 2 ^ 53)%Z.
  Proof.
    intros I ND. apply Z.le_lt_trans with (2 := few). apply Nat2Z.inj_le. apply Nat.le_trans with (2 := members_total rows l ND). clear. unfold shown_count.
    induction l as [|k l IH]; [apply Nat.le_refl|]. cbn [map]. rewrite ?list_sum_cons. destruct (_ && _); lia.
  Qed.
  Lemma entry_of k : is_observed K ke rows k = true -> entry (if Hist.within lim (count (members K ke rows k)) then count (members K ke rows k) else anan) (shown_count lim rows k).
  Proof.
    intro Ob. unfold shown_count. rewrite Ob. cbn [andb]. destruct (Hist.within lim _); [|left; split; reflexivity]. right.
    unfold count. rewrite members_notnan. pose proof (members_length ke rows k) as L. apply Nat2Z.inj_le in L. destruct (ofnat_exact _ (Z.le_lt_trans _ _ _ L few)) as [F V].
    split; [exact F|]. split; [exact V|]. unfold is_observed in Ob. apply existsb_exists in Ob. destruct Ob as [r [I M]].
    assert (J : In (snd r) (members K ke rows k)) by (unfold members; apply in_map; apply filter_In; auto). destruct (members K ke rows k); [destruct J|cbn; lia].
  Qed.
  Lemma not_observed k : is_observed K ke rows k = false -> shown_count lim rows k = 0%nat.
  Proof. intro E. unfold shown_count. rewrite E. reflexivity. Qed.
  Lemma skip_zero (p f : K -> bool) (g : K -> nat) l : (forall k, f k = false -> g k = 0%nat) -> list_sum (map g (filter p (filter f l))) = list_sum (map g (filter p l)).
  Proof.
    intro H. induction l as [|k l IH]; [reflexivity|]. cbn [filter]. destruct (f k) eqn:E; cbn [filter]; destruct (p k); cbn [map]; rewrite ?list_sum_cons; rewrite IH; try reflexivity. rewrite (H k E). reflexivity.
  Qed.
  (** the total of the entries selected by [p] *)
  Lemma sum_part (p : K -> bool) : is_finite (sum_skip (map snd (filter (fun kv : K * b64 => p (fst kv)) tb))) = true
    /\ B2R (sum_skip (map snd (filter (fun kv : K * b64 => p (fst kv)) tb))) = INR (list_sum (map (shown_count lim rows) (filter p keys))).
  Proof.
    rewrite tb_eq. rewrite filter_map. cbn [fst]. rewrite map_map. cbn [snd].
    assert (E : list_sum (map (shown_count lim rows) (filter p (filter (is_observed K ke rows) keys))) = list_sum (map (shown_count lim rows) (filter p keys))) by (apply skip_zero; exact not_observed).
    rewrite <- E. apply sum_skip_entries.
    - assert (A : forall k, In k (filter p (filter (is_observed K ke rows) keys)) -> is_observed K ke rows k = true) by (intros k I; apply filter_In in I; destruct I as [I _]; apply filter_In in I; apply I).
      change (filter (fun x : K => p x)) with (filter p). revert A. generalize (filter p (filter (is_observed K ke rows) keys)). induction l as [|k l IH]; intro A; [constructor|]. cbn [map]. constructor; [apply entry_of, A; left; reflexivity|apply IH; intros q I; apply A; right; exact I].
    - rewrite E. apply shown_total; [intros k I; apply filter_In in I; apply I|apply NoDup_filter, nodup].
  Qed.
  Lemma cell_entry k : In k keys -> entry (at_key K ke tb k) (shown_count lim rows k).
  Proof.
    intro I. assert (E : at_key K ke tb k = if is_observed K ke rows k then (if Hist.within lim (count (members K ke rows k)) then count (members K ke rows k) else anan) else anan).
    { rewrite tb_eq. clear nodup. induction keys as [|q l IH]; [destruct I|]. cbn [filter]. destruct (ke q k) eqn:Q.
      - apply ke_spec in Q. subst q. destruct (is_observed K ke rows k) eqn:O1.
        + cbn [map at_key]. replace (ke k k) with true by (symmetry; apply ke_spec; reflexivity). reflexivity.
        + clear IH I. induction l as [|q l IH]; [reflexivity|]. cbn [filter]. destruct (is_observed K ke rows q) eqn:O2; [|exact IH]. cbn [map at_key]. destruct (ke q k) eqn:Q; [apply ke_spec in Q; subst q; congruence|exact IH].
      - destruct I as [->|I]; [rewrite (proj2 (ke_spec k k) eq_refl) in Q; discriminate|]. destruct (is_observed K ke rows q); [cbn [map at_key]; rewrite Q|]; apply IH, I. }
    rewrite E. destruct (is_observed K ke rows k) eqn:O1; [apply entry_of, O1|]. rewrite not_observed by exact O1. left. split; reflexivity.
  Qed.
End Counts.

(* ------------------------------------------------------------------ widths *)
Lemma width_at (e : list b64) i : (S i < List.length e)%nat -> width e i = asub (nth (S i) e B754_nan) (nth i e B754_nan).
Proof.
  intro L. unfold width. replace (nth i (intervals e) (anan, anan)) with (nth i e (B754_nan : b64), nth (S i) e (B754_nan : b64)); [reflexivity|].
  revert i L. unfold intervals. induction e as [|a e IH]; intros i L; [cbn in L; lia|]. destruct e as [|b e]; [cbn in L; lia|].
  change (removelast (a :: b :: e)) with (a :: removelast (b :: e)). change (tl (a :: b :: e)) with (b :: e). cbn [combine]. destruct i as [|i]; [reflexivity|].
  cbn [nth]. rewrite <- IH by (cbn [List.length] in *; lia). reflexivity.
Qed.
Lemma near_gap (e : list b64) i : fair_edges e -> (S i < List.length e)%nat -> near 1 400 (width e i) (gap e i).
Proof.
  intros [F W] L. rewrite width_at by exact L. specialize (W i L). fold (gap e i). assert (F1 : is_finite (nth (S i) e B754_nan) = true) by (apply F, nth_In; exact L).
  assert (F0 : is_finite (nth i e B754_nan) = true) by (apply F, nth_In; lia). assert (G : gap e i = B2R (nth (S i) e B754_nan) - B2R (nth i e B754_nan)) by reflexivity.
  destruct (step64 0 400 (gap e i) (gap e i) ltac:(lia) ltac:(lia) W ltac:(cbn; lra) ltac:(cbn; lra)) as [B [L1 L2]].
  destruct (sub_fin (nth (S i) e B754_nan) (nth i e B754_nan) F1 F0) as [[_ [Fw Q]]|[X _]]; [|rewrite <- G in X; lra].
  split; [exact Fw|]. split; [exact W|]. rewrite Q, <- G. auto.
Qed.
Lemma gap_pos e i : fair_edges e -> (S i < List.length e)%nat -> 0 < gap e i.
Proof. intros F L. exact (proj1 (near_pos _ _ _ _ (near_gap e i F L))). Qed.

(* ------------------------------------------------------------------ dividing tables *)
Lemma at_div_g {K} (ke : K -> K -> bool) (S1 : forall a b, ke a b = true <-> a = b) (g : K -> b64) t k : at_key K ke (divide_by K g t) k = adiv (at_key K ke t k) (g k).
Proof.
  induction t as [|[q v] t IH]; [reflexivity|]. cbn [divide_by map at_key fst snd]. destruct (ke q k) eqn:E; [|exact IH]. apply S1 in E. subst q. reflexivity.
Qed.
Lemma nan_ratio (x y : b64) : is_nan x = true -> is_nan (adiv x y) = true.
Proof. intro N. rewrite nan_div64 by exact N. reflexivity. Qed.
Lemma entry_near x n : entry x n -> is_nan x = false -> (Z.of_nat n < 2 ^ 53)%Z -> near 0 53 x (INR n) /\ (1 <= n)%nat.
Proof. intros [[N _]|[F [V L]]] NN U; [congruence|]. split; [apply near_int; assumption|exact L]. Qed.
Lemma part_le (f : nat -> nat) l i : In i l -> (f i <= list_sum (map f l))%nat.
Proof. intro I. induction l as [|a l IH]; [destruct I|]. cbn [map]. rewrite list_sum_cons. destruct I as [->|I]; [lia|]. specialize (IH I). lia. Qed.
Lemma part_le_g {K} (f : K -> nat) l i : In i l -> (f i <= list_sum (map f l))%nat.
Proof. intro I. induction l as [|a l IH]; [destruct I|]. cbn [map]. rewrite list_sum_cons. destruct I as [->|I]; [lia|]. specialize (IH I). lia. Qed.

Lemma ok_of {X} (a b : X) : Ok a = Ok b -> a = b. Proof. intro H. injection H as H. exact H. Qed.
(** C235 *)
Theorem C235_density_1d : forall (TR : Transc b64) (named : bool) lim e data t, countable data -> (forall r, In r data -> snd r = a1) -> fair_edges e ->
  agg1 false N1Density lim e (plain b64 named) data = Ok t ->
  (exists i, (S i < List.length e)%nat /\ is_nan (agg1_value t i) = false) ->
  Rabs (Rsum (map (fun i => shown (agg1_value t i) * gap e i) (seq 0 (List.length e - 1))) - 1) <= 3 * bpow radix2 (-52).
Proof.
  intros TR named lim e data t C W Fe E [i0 [L0 N0]].
  assert (Cr : countable (rows1 e data)) by (unfold countable, rows1 in *; rewrite map_length; exact C).
  assert (Wr : forall r, In r (rows1 e data) -> snd r = a1) by (intros r I; unfold rows1 in I; apply in_map_iff in I; destruct I as [q [<- I]]; apply W, I).
  set (ks := bins e). assert (ND : NoDup ks) by apply seq_NoDup. assert (Ks : ks = seq 0 (List.length e - 1)) by (unfold ks, bins; rewrite nbin64; reflexivity).
  set (tb := agg_runner nat Nat.eqb ks lim FCount (rows1 e data)).
  assert (Et : t = divide_by nat (fun i => amul (width e i) (sum_skip (values nat tb))) tb).
  { unfold agg1 in E. destruct named; cbn [plain] in E; unfold axis_normalizer1 in E; fold ks in E; [|rewrite (default_is_count Nat.eqb _ Wr Cr) in E]; fold tb in E; apply ok_of in E; symmetry; exact E. }
  assert (Sp : forall a b : nat, Nat.eqb a b = true <-> a = b) by (intros; apply Nat.eqb_eq).
  set (sc := shown_count Nat.eqb lim (rows1 e data)).
  destruct (sum_part Nat.eqb Sp (rows1 e data) Wr Cr ks ND lim (fun _ => true)) as [Fs Vs]. fold tb sc in Fs, Vs. rewrite !filter_yes in Fs. rewrite !filter_yes in Vs. change (map snd tb) with (values nat tb) in Fs, Vs.
  pose proof (shown_total Nat.eqb Sp (rows1 e data) Cr ks lim ks (incl_refl ks) ND) as U. fold sc in U.
  assert (Ce : forall k, In k ks -> entry (at_key nat Nat.eqb tb k) (sc k)) by (intros k I; apply cell_entry; assumption).
  assert (V : forall k, agg1_value t k = adiv (at_key nat Nat.eqb tb k) (amul (width e k) (sum_skip (values nat tb)))) by (intro k; rewrite Et; apply (at_div_g Nat.eqb Sp)).
  assert (In_ks : forall k, In k ks <-> (S k < List.length e)%nat) by (intro k; rewrite Ks, in_seq; lia).
  assert (P : (1 <= list_sum (map sc ks))%nat).
  { assert (I0 : In i0 ks) by (apply In_ks, L0). pose proof (part_le_g sc ks i0 I0). destruct (Ce i0 I0) as [[N _]|[_ [_ L]]]; [|lia]. rewrite V, nan_ratio in N0 by exact N. discriminate. }
  rewrite <- Ks. replace 3 with (INR 3) by (cbn; lra). eapply integral with (n := sc) (e := 506%Z); [lia|lia| |].
  - intros k I. right. apply gap_pos; [exact Fe|apply In_ks, I].
  - intros k I. destruct (is_nan (at_key nat Nat.eqb tb k)) eqn:N.
    + left. destruct (Ce k I) as [[_ Z]|[F _]]; [|destruct (at_key nat Nat.eqb tb k); discriminate]. split; [rewrite V; apply nan_ratio, N|exact Z].
    + right. rewrite V. pose proof (part_le_g sc ks k I) as Lk. destruct (entry_near _ _ (Ce k I) N ltac:(lia)) as [Nc _].
      pose proof (near_int _ _ Fs Vs P U) as Nn. pose proof (near_gap e k Fe (proj1 (In_ks k) I)) as Ng.
      pose proof (near_mul _ _ _ _ _ _ _ _ Ng Nn ltac:(lia) ltac:(lia)) as M. exact (near_div _ _ _ _ _ _ _ _ Nc M ltac:(lia) ltac:(lia)).
Qed.

(* ------------------------------------------------------------------ two dimensions *)
Definition cells (ex ey : list b64) : list k2 := list_prod (seq 0 (List.length ex - 1)) (seq 0 (List.length ey - 1)).
Lemma bins2_cells ex ey : bins2 ex ey = cells ex ey.
Proof. unfold bins2, bins, cells. rewrite !nbin64. reflexivity. Qed.
Lemma in_cells ex ey i j : In (i, j) (cells ex ey) <-> (S i < List.length ex)%nat /\ (S j < List.length ey)%nat.
Proof. unfold cells. rewrite in_prod_iff, !in_seq. lia. Qed.
Lemma grid_facts (TR : Transc b64) named lim ex ey data : countable data -> weight_one data ->
  let tb := agg_runner k2 k2_eqb (bins2 ex ey) lim (plain b64 named) (rows2 ex ey data) in
  exists sc : k2 -> nat,
  (forall k, In k (cells ex ey) -> entry (at_key k2 k2_eqb tb k) (sc k))
  /\ (forall p, is_finite (sum_skip (map snd (filter (fun kv : k2 * b64 => p (fst kv)) tb))) = true
       /\ B2R (sum_skip (map snd (filter (fun kv : k2 * b64 => p (fst kv)) tb))) = INR (list_sum (map sc (filter p (cells ex ey))))
       /\ (Z.of_nat (list_sum (map sc (filter p (cells ex ey)))) < 2 ^ 53)%Z).
Proof.
  intros C W tb. assert (Cr : countable (rows2 ex ey data)) by (unfold countable, rows2 in *; rewrite map_length; exact C).
  assert (Wr : forall r, In r (rows2 ex ey data) -> snd r = a1) by (intros r I; unfold rows2 in I; apply in_map_iff in I; destruct I as [q [<- I]]; apply W, I).
  assert (ND : NoDup (cells ex ey)) by (apply NoDup_prod; apply seq_NoDup).
  assert (Et : tb = agg_runner k2 k2_eqb (cells ex ey) lim FCount (rows2 ex ey data)).
  { unfold tb. rewrite bins2_cells. destruct named; [reflexivity|]. apply (default_is_count k2_eqb _ Wr Cr). }
  rewrite Et. exists (shown_count k2_eqb lim (rows2 ex ey data)). split.
  - intros k I. apply (cell_entry k2_eqb k2_eqb_spec _ Wr Cr). exact I.
  - intro p. destruct (sum_part k2_eqb k2_eqb_spec _ Wr Cr _ ND lim p) as [F V]. split; [exact F|]. split; [exact V|].
    apply (shown_total k2_eqb k2_eqb_spec _ Cr (cells ex ey)); [intros k I; apply filter_In in I; apply I|apply NoDup_filter, ND].
Qed.
Lemma entry_zero x n : entry x n -> is_nan x = true -> n = 0%nat.
Proof. intros [[_ Z]|[F _]] N; [exact Z|destruct x; discriminate]. Qed.
Lemma entry_pos x n : entry x n -> is_nan x = false -> (1 <= n)%nat.
Proof. intros [[N _]|[_ [_ L]]] NN; [congruence|exact L]. Qed.
Theorem C235_density_2d : forall (TR : Transc b64) (named : bool) lim ex ey data, countable data -> weight_one data -> fair_edges ex -> fair_edges ey ->
  let t := agg2_value (agg2 false false N2Density lim nolim64 ex ey (plain b64 named) data) in
  (exists i j, (S i < List.length ex)%nat /\ (S j < List.length ey)%nat /\ is_nan (t i j) = false) ->
  Rabs (Rsum (map (fun k => shown (t (fst k) (snd k)) * (gap ex (fst k) * gap ey (snd k))) (list_prod (seq 0 (List.length ex - 1)) (seq 0 (List.length ey - 1)))) - 1) <= 5 * bpow radix2 (-52).
Proof.
  intros TR named lim ex ey data C W Fx Fy t [i0 [j0 [Li [Lj N0]]]]. fold (cells ex ey).
  destruct (grid_facts TR named lim ex ey data C W) as [sc [Ce Su]]. unfold t, agg2, agg2_value in *. clear t. rewrite no_alim64 in *. set (tb := agg_runner _ _ _ _ _ _) in *.
  destruct (Su (fun _ => true)) as [Fs [Vs U]]. rewrite filter_yes in Fs. rewrite !filter_yes in Vs. rewrite filter_yes in U. change (map snd tb) with (values k2 tb) in *.
  assert (V : forall k, at_key k2 k2_eqb (axis_normalizer2 false false N2Density ex ey tb) k = adiv (adiv (adiv (at_key k2 k2_eqb tb k) (width ex (fst k))) (width ey (snd k))) (sum_skip (values k2 tb)))
    by (intro k; unfold axis_normalizer2; cbv zeta; rewrite !(at_div_g k2_eqb k2_eqb_spec); reflexivity).
  assert (NN : forall k, is_nan (at_key k2 k2_eqb tb k) = true -> is_nan (at_key k2 k2_eqb (axis_normalizer2 false false N2Density ex ey tb) k) = true)
    by (intros k N; rewrite V; apply nan_ratio, nan_ratio, nan_ratio, N).
  clearbody tb. assert (P : (1 <= list_sum (map sc (cells ex ey)))%nat).
  { assert (I0 : In (i0, j0) (cells ex ey)) by (apply in_cells; auto). pose proof (part_le_g sc _ _ I0). specialize (Ce _ I0).
    destruct (is_nan (at_key k2 k2_eqb tb (i0, j0))) eqn:N; [rewrite NN in N0 by exact N; discriminate|]. pose proof (entry_pos _ _ Ce N). lia. }
  replace 5 with (INR 5) by (cbn; lra).
  rewrite (map_ext _ (fun k => shown (at_key k2 k2_eqb (axis_normalizer2 false false N2Density ex ey tb) k) * (gap ex (fst k) * gap ey (snd k)))) by (intros [a b]; reflexivity).
  eapply integral with (n := sc) (e := 906%Z); [lia|lia| |].
  - intros [i j] I. apply in_cells in I. right. apply Rmult_lt_0_compat; apply gap_pos; tauto.
  - intros [i j] I. destruct (is_nan (at_key k2 k2_eqb tb (i, j))) eqn:N; [left; split; [apply NN, N|exact (entry_zero _ _ (Ce _ I) N)]|]. right. rewrite V. cbn [fst snd].
    pose proof (part_le_g sc _ _ I) as Lk. destruct (entry_near _ _ (Ce _ I) N ltac:(lia)) as [Nc _]. apply in_cells in I. destruct I as [Ii Ij].
    pose proof (near_gap ex i Fx Ii) as Gx. pose proof (near_gap ey j Fy Ij) as Gy. pose proof (near_int _ _ Fs Vs P U) as Nn.
    pose proof (near_div _ _ _ _ _ _ _ _ Nc Gx ltac:(lia) ltac:(lia)) as D1. pose proof (near_div _ _ _ _ _ _ _ _ D1 Gy ltac:(lia) ltac:(lia)) as D2. pose proof (near_div _ _ _ _ _ _ _ _ D2 Nn ltac:(lia) ltac:(lia)) as D3.
    replace (INR (sc (i, j)) / (gap ex i * gap ey j * INR (list_sum (map sc (cells ex ey))))) with (INR (sc (i, j)) / gap ex i / gap ey j / INR (list_sum (map sc (cells ex ey)))); [exact D3|].
    pose proof (gap_pos ex i Fx Ii). pose proof (gap_pos ey j Fy Ij). destruct (near_pos _ _ _ _ Nn). field. repeat split; lra.
Qed.
Lemma list_sum_map_map {A B} (f : B -> nat) (g : A -> B) l : list_sum (map f (map g l)) = list_sum (map (fun x => f (g x)) l).
Proof. rewrite map_map. reflexivity. Qed.
Theorem C235_column_density : forall (TR : Transc b64) (lx ly named : bool) lim ex ey data, countable data -> weight_one data -> fair_edges ey ->
  let t := agg2_value (agg2 lx ly N2ColDensity lim nolim64 ex ey (plain b64 named) data) in
  forall i, (S i < List.length ex)%nat -> (exists j, (S j < List.length ey)%nat /\ is_nan (t i j) = false) ->
  Rabs (Rsum (map (fun j => shown (t i j) * gap ey j) (seq 0 (List.length ey - 1))) - 1) <= 3 * bpow radix2 (-52).
Proof.
  intros TR lx ly named lim ex ey data C W Fy t i Li [j0 [Lj N0]].
  destruct (grid_facts TR named lim ex ey data C W) as [sc [Ce Su]]. unfold t, agg2, agg2_value in *. clear t. rewrite no_alim64 in *. set (tb := agg_runner _ _ _ _ _ _) in *.
  destruct (Su (fun k => Nat.eqb (fst k) i)) as [Fs [Vs U]]. unfold cells in Vs, U. rewrite filter_prod_l in Vs, U by (try apply seq_NoDup; apply in_seq; lia). rewrite list_sum_map_map in Vs, U.
  change (map snd (filter (fun kv : k2 * b64 => Nat.eqb (fst (fst kv)) i) tb)) with (col_of i tb) in *.
  assert (V : forall j, at_key k2 k2_eqb (axis_normalizer2 lx ly N2ColDensity ex ey tb) (i, j) = adiv (adiv (at_key k2 k2_eqb tb (i, j)) (sum_skip (col_of i tb))) (width ey j))
    by (intro j; unfold axis_normalizer2; rewrite !(at_div_g k2_eqb k2_eqb_spec); reflexivity).
  assert (NN : forall j, is_nan (at_key k2 k2_eqb tb (i, j)) = true -> is_nan (at_key k2 k2_eqb (axis_normalizer2 lx ly N2ColDensity ex ey tb) (i, j)) = true)
    by (intros j N; rewrite V; apply nan_ratio, nan_ratio, N).
  assert (Inc : forall j, In j (seq 0 (List.length ey - 1)) -> In (i, j) (cells ex ey)) by (intros j I; apply in_cells; apply in_seq in I; lia).
  clearbody tb. set (ks := seq 0 (List.length ey - 1)) in *. assert (P : (1 <= list_sum (map (fun j => sc (i, j)) ks))%nat).
  { assert (I0 : In j0 ks) by (apply in_seq; lia). pose proof (part_le (fun j => sc (i, j)) _ _ I0). specialize (Ce _ (Inc _ I0)).
    destruct (is_nan (at_key k2 k2_eqb tb (i, j0))) eqn:N; [rewrite NN in N0 by exact N; discriminate|]. pose proof (entry_pos _ _ Ce N). cbv beta in *. lia. }
  replace 3 with (INR 3) by (cbn; lra). eapply integral with (n := fun j => sc (i, j)) (e := 506%Z); [lia|lia| |].
  - intros j I. right. apply gap_pos; [exact Fy|]. apply in_seq in I. lia.
  - intros j I. destruct (is_nan (at_key k2 k2_eqb tb (i, j))) eqn:N; [left; split; [apply NN, N|exact (entry_zero _ _ (Ce _ (Inc _ I)) N)]|]. right. rewrite V.
    pose proof (part_le (fun j => sc (i, j)) _ _ I) as Lk. cbv beta in Lk. destruct (entry_near _ _ (Ce _ (Inc _ I)) N ltac:(lia)) as [Nc _].
    assert (Ij : (S j < List.length ey)%nat) by (apply in_seq in I; lia). pose proof (near_gap ey j Fy Ij) as Gy. pose proof (near_int _ _ Fs Vs P U) as Nn.
    pose proof (near_div _ _ _ _ _ _ _ _ Nc Nn ltac:(lia) ltac:(lia)) as D1. pose proof (near_div _ _ _ _ _ _ _ _ D1 Gy ltac:(lia) ltac:(lia)) as D2.
    replace (INR (sc (i, j)) / (gap ey j * INR (list_sum (map (fun j => sc (i, j)) ks)))) with (INR (sc (i, j)) / INR (list_sum (map (fun j => sc (i, j)) ks)) / gap ey j); [exact D2|].
    pose proof (gap_pos ey j Fy Ij). destruct (near_pos _ _ _ _ Nn). field. repeat split; lra.
Qed.
Theorem C235_row_density : forall (TR : Transc b64) (lx ly named : bool) lim ex ey data, countable data -> weight_one data -> fair_edges ex ->
  let t := agg2_value (agg2 lx ly N2RowDensity lim nolim64 ex ey (plain b64 named) data) in
  forall j, (S j < List.length ey)%nat -> (exists i, (S i < List.length ex)%nat /\ is_nan (t i j) = false) ->
  Rabs (Rsum (map (fun i => shown (t i j) * gap ex i) (seq 0 (List.length ex - 1))) - 1) <= 3 * bpow radix2 (-52).
Proof.
  intros TR lx ly named lim ex ey data C W Fx t j Lj [i0 [Li N0]].
  destruct (grid_facts TR named lim ex ey data C W) as [sc [Ce Su]]. unfold t, agg2, agg2_value in *. clear t. rewrite no_alim64 in *. set (tb := agg_runner _ _ _ _ _ _) in *.
  destruct (Su (fun k => Nat.eqb (snd k) j)) as [Fs [Vs U]]. unfold cells in Vs, U. rewrite filter_prod_r in Vs, U by (try apply seq_NoDup; apply in_seq; lia). rewrite list_sum_map_map in Vs, U.
  change (map snd (filter (fun kv : k2 * b64 => Nat.eqb (snd (fst kv)) j) tb)) with (row_of j tb) in *.
  assert (V : forall i, at_key k2 k2_eqb (axis_normalizer2 lx ly N2RowDensity ex ey tb) (i, j) = adiv (adiv (at_key k2 k2_eqb tb (i, j)) (sum_skip (row_of j tb))) (width ex i))
    by (intro i; unfold axis_normalizer2; rewrite !(at_div_g k2_eqb k2_eqb_spec); reflexivity).
  assert (NN : forall i, is_nan (at_key k2 k2_eqb tb (i, j)) = true -> is_nan (at_key k2 k2_eqb (axis_normalizer2 lx ly N2RowDensity ex ey tb) (i, j)) = true)
    by (intros i N; rewrite V; apply nan_ratio, nan_ratio, N).
  assert (Inc : forall i, In i (seq 0 (List.length ex - 1)) -> In (i, j) (cells ex ey)) by (intros i I; apply in_cells; apply in_seq in I; lia).
  clearbody tb. set (ks := seq 0 (List.length ex - 1)) in *. assert (P : (1 <= list_sum (map (fun i => sc (i, j)) ks))%nat).
  { assert (I0 : In i0 ks) by (apply in_seq; lia). pose proof (part_le (fun i => sc (i, j)) _ _ I0). specialize (Ce _ (Inc _ I0)).
    destruct (is_nan (at_key k2 k2_eqb tb (i0, j))) eqn:N; [rewrite NN in N0 by exact N; discriminate|]. pose proof (entry_pos _ _ Ce N). cbv beta in *. lia. }
  replace 3 with (INR 3) by (cbn; lra). eapply integral with (n := fun i => sc (i, j)) (e := 506%Z); [lia|lia| |].
  - intros i I. right. apply gap_pos; [exact Fx|]. apply in_seq in I. lia.
  - intros i I. destruct (is_nan (at_key k2 k2_eqb tb (i, j))) eqn:N; [left; split; [apply NN, N|exact (entry_zero _ _ (Ce _ (Inc _ I)) N)]|]. right. rewrite V.
    pose proof (part_le (fun i => sc (i, j)) _ _ I) as Lk. cbv beta in Lk. destruct (entry_near _ _ (Ce _ (Inc _ I)) N ltac:(lia)) as [Nc _].
    assert (Ii : (S i < List.length ex)%nat) by (apply in_seq in I; lia). pose proof (near_gap ex i Fx Ii) as Gx. pose proof (near_int _ _ Fs Vs P U) as Nn.
    pose proof (near_div _ _ _ _ _ _ _ _ Nc Nn ltac:(lia) ltac:(lia)) as D1. pose proof (near_div _ _ _ _ _ _ _ _ D1 Gx ltac:(lia) ltac:(lia)) as D2.
    replace (INR (sc (i, j)) / (gap ex i * INR (list_sum (map (fun i => sc (i, j)) ks)))) with (INR (sc (i, j)) / INR (list_sum (map (fun i => sc (i, j)) ks)) / gap ex i); [exact D2|].
    pose proof (gap_pos ex i Fx Ii). destruct (near_pos _ _ _ _ Nn). field. repeat split; lra.
Qed.
(** a case: the edges 0, 1, 3, three rows in the first bin and one in the second *)
Example C235_case : forall TR : Transc b64,
  let h : b64 := aofQ 1 2 in let e : list b64 := map aofZ [0; 1; 3]%Z in let data : list (b64 * b64) := [(h, a1); (h, a1); (aofZ 2, a1); (h, a1)] in
  countable data /\ (forall r, In r data -> snd r = a1) /\ fair_edges e
  /\ exists t, agg1 false N1Density nolim64 e FDefault data = Ok t /\ map (fun i => B2SF (agg1_value t i)) [0; 1]%nat = [B2SF (aofQ 3 4 : b64); B2SF (aofQ 1 8 : b64)].
Proof.
  intros TR h e data. split; [reflexivity|]. split; [intros r I; unfold data in I; repeat (destruct I as [<-|I]; [reflexivity|]); destruct I|]. split.
  - assert (V : forall z, (Z.abs z < 2 ^ 53)%Z -> is_finite (aofZ z : b64) = true /\ B2R (aofZ z : b64) = IZR z).
    { intros z L. destruct (bZ_ok z L) as [F V]. destruct (bZ_ok 1 ltac:(lia)) as [F1 V1]. change (aofZ z : b64) with (adiv (bZ z) (bZ 1)).
      assert (Q : rnd (B2R (bZ z) / B2R (bZ 1)) = B2R (bZ z)) by (rewrite V1; unfold Rdiv; rewrite Rinv_1, Rmult_1_r; apply rnd_id).
      destruct (div_fin (bZ z) (bZ 1) F ltac:(rewrite V1; lra)) as [[_ [G X]]|[G _]]; [split; [exact G|rewrite X, Q; exact V]|]. rewrite Q in G. pose proof (B2R_lt (bZ z)). lra. }
    assert (LB : bpow radix2 (-400) <= 1 /\ 2 <= bpow radix2 400) by (split; [change 1 with (bpow radix2 0)|change 2 with (bpow radix2 1)]; apply bpow_le; lia).
    split; [intros x I; unfold e in I; repeat (destruct I as [<-|I]; [apply V; lia|]); destruct I|].
    intros i L. unfold gap, e in *. rewrite map_length in L. cbn [List.length] in L. destruct i as [|[|i]]; [| |lia]; cbn [map nth]; rewrite !(fun z H => proj2 (V z H)) by lia; lra.
  - eexists. split; [reflexivity|]. lazy. reflexivity.
Qed.
