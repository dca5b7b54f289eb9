(** C153 (sampling the data in drawn boxes), C154 (data already selected elsewhere), C155 (every datum at most once). *)
From Coq Require Import List String Bool Arith ZArith Reals Lra Lia Permutation Sorted.
From Verif Require Import Py PyStr Num Sort Hist HistThms FitCoreThms FitFuncsThms Select.
Import ListNotations.
Open Scope list_scope.
Open Scope R_scope.

(* ------------------------------------------------------------------ specification *)
(** Rows have a label and two stored coordinates; on a logarithmic axis a stored x is shown at 10^x. *)
Definition rrow := (Z * (R * R))%type.
Record rbox := mkR { x0 : R; x1 : R; y0 : R; y1 : R }.
Definition shown (lg : bool) (x : R) : R := if lg then Rpower 10 x else x.
Definition inside (lx ly : bool) (b : rbox) (r : rrow) : Prop :=
  x0 b < shown lx (fst (snd r)) <= x1 b /\ y0 b < shown ly (snd (snd r)) <= y1 b.
(** Boxes can only be drawn at positive values of a logarithmic axis. *)
Definition drawable (lx ly : bool) (b : rbox) : Prop := (lx = true -> 0 < x0 b /\ 0 < x1 b) /\ (ly = true -> 0 < y0 b /\ 0 < y1 b).
Definition fin_box (b : rbox) : box (T := XR) := mkBox (Fin (x0 b)) (Fin (x1 b)) (Fin (y0 b)) (Fin (y1 b)).
Definition fin_r (r : rrow) : row (T := XR) := (fst r, (Fin (fst (snd r)), Fin (snd (snd r)))).
(** What pandas promises about sampling: labels of the population; exactly n; without replacement, each at most once. *)
Definition fair (pick : sampler) : Prop :=
  (forall n l, (n <= List.length l)%nat -> NoDup l -> incl (pick false n l) l /\ List.length (pick false n l) = n /\ NoDup (pick false n l))
  /\ (forall n l, l <> [] -> incl (pick true n l) l /\ List.length (pick true n l) = n).
Definition sample (pick : sampler) lx ly data boxes others n := sample_data (T := XR) pick lx ly (map fin_r data) (map fin_box boxes) others n None.
Definition taken (others : option (list (option (list Z)))) (i : Z) : Prop :=
  match others with None => False | Some l => exists s, In (Some s) l /\ In i s end.
Definition all_present (data : list rrow) others : Prop := forall i, taken others i -> In i (map fst data).

(* ------------------------------------------------------------------ lemmas *)
Lemma ok_inj {X} (a b : X) : Ok a = Ok b -> a = b.
Proof. congruence. Qed.
Lemma log10_lt a x : 0 < a -> altb (log10 (Fin a)) (Fin x) = true <-> a < Rpower 10 x.
Proof.
  intros P. unfold log10. rewrite fin_ofZ, !fin_ln, fin_div by (try lra; apply Rgt_not_eq, ln10_pos). rewrite fin_ltb, Rltb_true.
  pose proof ln10_pos as L. unfold Rpower. split; intros H.
  - rewrite <- (exp_ln a P). apply exp_increasing. apply (Rmult_lt_compat_r (ln 10)) in H; [|exact L]. replace (ln a / ln 10 * ln 10) with (ln a) in H by (field; lra). exact H.
  - rewrite <- (exp_ln a P) in H. apply exp_lt_inv in H. apply (Rmult_lt_reg_r (ln 10)); [exact L|]. replace (ln a / ln 10 * ln 10) with (ln a) by (field; lra). exact H.
Qed.
Lemma log10_ge a x : 0 < a -> aleb (Fin x) (log10 (Fin a)) = true <-> Rpower 10 x <= a.
Proof.
  intros P. pose proof (log10_lt a x P) as H. unfold log10 in *. rewrite fin_ofZ, !fin_ln, fin_div in * by (try lra; apply Rgt_not_eq, ln10_pos).
  rewrite fin_ltb, Rltb_true in H. rewrite fin_leb, Rleb_true. split; intro Q; apply Rnot_lt_le; intro Q2; [apply H in Q2|apply H in Q2]; lra.
Qed.
Lemma in_box_spec lx ly b r : drawable lx ly b -> in_box lx ly (fin_box b) (fin_r r) = true <-> inside lx ly b r.
Proof.
  intros [DX DY]. unfold in_box, inside. cbv zeta. cbn [fin_box fin_r b_x0 b_x1 b_y0 b_y1 fst snd]. rewrite !andb_true_iff.
  assert (X : altb (to_stored lx (Fin (x0 b))) (Fin (fst (snd r))) = true /\ aleb (Fin (fst (snd r))) (to_stored lx (Fin (x1 b))) = true <-> x0 b < shown lx (fst (snd r)) <= x1 b).
  { destruct lx; cbn [to_stored shown]; [destruct (DX eq_refl); rewrite log10_lt, log10_ge by assumption; tauto|]. rewrite fin_ltb, fin_leb, Rltb_true, Rleb_true. tauto. }
  assert (Y : altb (to_stored ly (Fin (y0 b))) (Fin (snd (snd r))) = true /\ aleb (Fin (snd (snd r))) (to_stored ly (Fin (y1 b))) = true <-> y0 b < shown ly (snd (snd r)) <= y1 b).
  { destruct ly; cbn [to_stored shown]; [destruct (DY eq_refl); rewrite log10_lt, log10_ge by assumption; tauto|]. rewrite fin_ltb, fin_leb, Rltb_true, Rleb_true. tauto. }
  rewrite X, Y. reflexivity.
Qed.
Lemma first_of_each_spec l : forall seen, NoDup (first_of_each seen l) /\ (forall x, In x (first_of_each seen l) <-> In x l /\ ~ In x seen) /\ (List.length (first_of_each seen l) <= List.length l)%nat.
Proof.
  assert (E : forall x (s : list Z), existsb (Z.eqb x) s = true <-> In x s).
  { intros x s. rewrite existsb_exists. split; [intros (y & I & Q); apply Z.eqb_eq in Q; subst; exact I|intro I; exists x; split; [exact I|apply Z.eqb_refl]]. }
  induction l as [|x l IH]; intros seen; cbn [first_of_each].
  - split; [constructor|]. split; [intro; cbn; tauto|cbn; lia].
  - destruct (existsb (Z.eqb x) seen) eqn:Q.
    + destruct (IH seen) as (A & B & C). split; [exact A|]. split; [|cbn; lia]. intro y. rewrite B. cbn. apply E in Q. split; [tauto|]. intros [[->|I] N]; [contradiction|tauto].
    + destruct (IH (x :: seen)) as (A & B & C). assert (NQ : ~ In x seen) by (rewrite <- E; congruence). split; [|split; [|cbn; lia]].
      * constructor; [|exact A]. intro I. apply B in I as [_ I]. apply I. left. reflexivity.
      * intro y. cbn [In]. rewrite B. cbn [In]. destruct (Z.eq_dec x y) as [->|N]; [tauto|]. split; [intros [->|(H1 & H2)]; [congruence|tauto]|]. intros [[->|H1] H2]; [congruence|right; tauto].
Qed.
Lemma sample_one_spec pick n idx : fair pick -> NoDup idx -> idx <> [] ->
  incl (sample_one pick n idx) idx /\ NoDup (sample_one pick n idx) /\ (List.length (sample_one pick n idx) <= n)%nat
  /\ ((n <= List.length idx)%nat -> List.length (sample_one pick n idx) = n) /\ ((1 <= n)%nat -> sample_one pick n idx <> []).
Proof.
  intros [F1 F2] N NE. unfold sample_one. destruct (Nat.leb n (List.length idx)) eqn:E; [apply Nat.leb_le in E|apply Nat.leb_gt in E].
  - destruct (F1 n idx E N) as (A & B & C). split; [exact A|]. split; [exact C|]. split; [lia|]. split; [lia|]. intros P Q. rewrite Q in B. cbn in B. lia.
  - destruct (F2 n idx NE) as (A & B). destruct (first_of_each_spec (pick true n idx) []) as (C & D & L).
    split; [intros x I; apply D in I as [I _]; apply A, I|]. split; [exact C|]. split; [lia|]. split; [lia|]. intros P Q.
    destruct (pick true n idx) as [|z zs] eqn:K; [cbn in B; lia|]. rewrite <- K in Q. assert (I : In z (first_of_each [] (z :: zs))) by (apply D; split; [left; reflexivity|intros []]).
    rewrite K in Q. rewrite Q in I. exact I.
Qed.
Definition avail (data : list rrow) others : list (row (T := XR)) := available (map fin_r data) others.
Definition boxed lx ly data others b : list Z := map fst (filter (in_box lx ly (fin_box b)) (avail data others)).
Lemma sample_eq pick lx ly data boxes others n : sample pick lx ly data boxes others n =
  Ok {| s_indices := sort_by Z.leb (flat_map (fun b => match boxed lx ly data others b with [] => [] | idx => sample_one pick n idx end) boxes);
        s_failed := map fin_box (filter (fun b => match boxed lx ly data others b with [] => true | _ => false end) boxes); s_per_patch := n |}.
Proof.
  unfold sample, sample_data. cbv zeta. fold (avail data others).
  assert (G : forall bs (a : list Z) (f : list (box (T := XR))), fold_left (fun acc b => match map fst (filter (in_box lx ly b) (avail data others)) with [] => (fst acc, snd acc ++ [b]) | (_ :: _) as idx => (fst acc ++ sample_one pick n idx, snd acc) end) (map fin_box bs) (a, f)
     = (a ++ flat_map (fun b => match boxed lx ly data others b with [] => [] | idx => sample_one pick n idx end) bs, f ++ map fin_box (filter (fun b => match boxed lx ly data others b with [] => true | _ => false end) bs))).
  { induction bs as [|b bs IH]; intros a f; cbn [map fold_left flat_map filter]; [rewrite !app_nil_r; reflexivity|].
    fold (boxed lx ly data others b). destruct (boxed lx ly data others b) as [|z zs]; cbn [fst snd]; rewrite IH; cbn [map app]; rewrite <- ?app_assoc; reflexivity. }
  rewrite G. reflexivity.
Qed.
Lemma avail_spec data others r : In r (avail data others) -> exists d, In d data /\ r = fin_r d.
Proof.
  unfold avail, available. intro I. assert (J : In r (map fin_r data)).
  { destruct others as [l|]; [|exact I]. cbv zeta in I. destruct (forallb _ _); [apply filter_In in I; tauto|exact I]. }
  apply in_map_iff in J as (d & <- & J). exists d. auto.
Qed.
Lemma taken_flat l i : In i (flat_map (fun o : option (list Z) => match o with Some s => s | None => [] end) l) <-> exists s, In (Some s) l /\ In i s.
Proof.
  rewrite in_flat_map. split.
  - intros ([s|] & I & J); [exists s; auto|destruct J].
  - intros (s & I & J). exists (Some s). auto.
Qed.
Lemma avail_all data others d : all_present data others -> In (fin_r d) (avail data others) <-> In (fin_r d) (map fin_r data) /\ ~ taken others (fst d).
Proof.
  intros P. unfold avail, available, taken in *. destruct others as [l|]; [|tauto]. cbv zeta.
  assert (E : forallb (fun i => existsb (fun r : row (T := XR) => Z.eqb (fst r) i) (map fin_r data)) (flat_map (fun o => match o with Some s => s | None => [] end) l) = true).
  { apply forallb_forall. intros i I. apply taken_flat in I. apply existsb_exists. specialize (P i I). apply in_map_iff in P as (d' & <- & J). exists (fin_r d'). split; [apply in_map, J|apply Z.eqb_refl]. }
  change (In (fin_r d) (if forallb (fun i => existsb (fun r : row (T := XR) => Z.eqb (fst r) i) (map fin_r data)) (flat_map (fun o => match o with Some s => s | None => [] end) l) then filter (fun r : row (T := XR) => negb (existsb (Z.eqb (fst r)) (flat_map (fun o => match o with Some s => s | None => [] end) l))) (map fin_r data) else map fin_r data) <-> In (fin_r d) (map fin_r data) /\ ~ (exists s, In (Some s) l /\ In (fst d) s)).
  rewrite E, filter_In, negb_true_iff. cbn [fin_r fst].
  assert (Q : existsb (Z.eqb (fst d)) (flat_map (fun o => match o with Some s => s | None => [] end) l) = false <-> ~ exists s, In (Some s) l /\ In (fst d) s).
  { rewrite <- taken_flat, <- not_true_iff_false, existsb_exists. split; intros H I; apply H.
    - exists (fst d). split; [exact I|apply Z.eqb_refl].
    - destruct I as (x & I & J). apply Z.eqb_eq in J. subst. exact I. }
  rewrite Q. tauto.
Qed.
Lemma fin_r_inj d d' : fin_r d = fin_r d' -> d = d'.
Proof. destruct d as [i [a b]], d' as [j [c e]]. unfold fin_r. cbn. intro H. injection H as -> -> ->. reflexivity. Qed.
Lemma boxed_in lx ly data others b i : drawable lx ly b -> In i (boxed lx ly data others b) <-> exists d, In (fin_r d) (avail data others) /\ In d data /\ fst d = i /\ inside lx ly b d.
Proof.
  intros D. unfold boxed. rewrite in_map_iff. split.
  - intros (r & <- & I). apply filter_In in I as [I B]. destruct (avail_spec _ _ _ I) as (d & J & ->). exists d. split; [exact I|]. split; [exact J|]. split; [reflexivity|apply in_box_spec; assumption].
  - intros (d & I & J & <- & B). exists (fin_r d). split; [reflexivity|]. apply filter_In. split; [exact I|apply in_box_spec; assumption].
Qed.
Lemma avail_nodup data others : NoDup (map fst data) -> NoDup (map fst (avail data others)).
Proof.
  intro N. assert (M : NoDup (map fst (map fin_r data))) by (rewrite map_map; exact N).
  unfold avail, available. destruct others as [l|]; [|exact M]. cbv zeta. destruct (forallb _ _); [|exact M]. revert M. generalize (map fin_r data). clear.
  induction l0 as [|r d IH]; intro M; cbn [filter]; [constructor|]. inversion M; subst. destruct (negb _); [|apply IH; assumption]. cbn [map]. constructor; [|apply IH; assumption].
  intro I. apply H1. apply in_map_iff in I as (x & E & I). apply filter_In in I as [I _]. apply in_map_iff. exists x. auto.
Qed.
Lemma boxed_nodup lx ly data others b : NoDup (map fst data) -> NoDup (boxed lx ly data others b).
Proof.
  intro N. apply (avail_nodup _ others) in N. unfold boxed. revert N. generalize (avail data others). clear. induction l as [|r l IH]; intro M; cbn [filter map]; [constructor|].
  inversion M; subst. destruct (in_box _ _ _ _); [|apply IH; assumption]. cbn [map]. constructor; [|apply IH; assumption]. intro I. apply H1. apply in_map_iff in I as (x & E & I). apply filter_In in I as [I _]. apply in_map_iff. exists x. auto.
Qed.

(* ================================================================ C153 *)
Section C153.
  Variables (pick : sampler) (lx ly : bool) (data : list rrow) (boxes : list rbox) (others : option (list (option (list Z)))) (n : nat) (s : sampled (T := XR)).
  Hypothesis F : fair pick.
  Hypothesis N : NoDup (map fst data).
  Hypothesis D : forall b, In b boxes -> drawable lx ly b.
  Hypothesis P : all_present data others.
  Hypothesis H : sample pick lx ly data boxes others n = Ok s.
  Lemma H_indices i : In i (s_indices s) <-> exists b, In b boxes /\ boxed lx ly data others b <> [] /\ In i (sample_one pick n (boxed lx ly data others b)).
  Proof.
    rewrite sample_eq in H. assert (E : s_indices s = sort_by Z.leb (flat_map (fun b => match boxed lx ly data others b with [] => [] | idx => sample_one pick n idx end) boxes)) by (rewrite <- (ok_inj _ _ H); reflexivity).
    rewrite E, sort_by_In, in_flat_map. split.
    - intros (b & I & J). exists b. split; [exact I|]. destruct (boxed lx ly data others b); [destruct J|]. split; [discriminate|exact J].
    - intros (b & I & NE & J). exists b. split; [exact I|]. destruct (boxed lx ly data others b); [congruence|exact J].
  Qed.
  (** Everything sampled lies in a drawn box and was not taken before; the failed boxes are exactly those without such
      data; every other box gives at least one datum (n of them when it holds so many); the labels come out in order. *)
  Theorem C153_sampled_data :
    (forall i, In i (s_indices s) -> ~ taken others i /\ exists d b, In d data /\ fst d = i /\ In b boxes /\ inside lx ly b d)
    /\ (forall b, In b boxes -> (In (fin_box b) (s_failed s) <-> forall d, In d data -> inside lx ly b d -> taken others (fst d)))
    /\ (forall b d, (1 <= n)%nat -> In b boxes -> In d data -> inside lx ly b d -> ~ taken others (fst d) ->
          exists d', In d' data /\ inside lx ly b d' /\ In (fst d') (s_indices s))
    /\ (List.length (s_indices s) <= n * List.length boxes)%nat
    /\ StronglySorted Z.le (s_indices s) /\ s_per_patch s = n.
  Proof.
    assert (BI : forall b i, In b boxes -> In i (boxed lx ly data others b) <-> exists d, In d data /\ fst d = i /\ inside lx ly b d /\ ~ taken others i).
    { intros b i I. rewrite (boxed_in _ _ _ _ _ _ (D b I)). split.
      - intros (d & A & B & C & E). exists d. split; [exact B|]. split; [exact C|]. split; [exact E|]. apply (avail_all _ _ _ P) in A as [_ A]. rewrite <- C. exact A.
      - intros (d & B & C & E & T). exists d. split; [apply (avail_all _ _ _ P); split; [apply in_map, B|rewrite C; exact T]|]. auto. }
    split; [|split; [|split; [|split; [|split]]]].
    - intros i I. apply H_indices in I as (b & I & NE & J). destruct (sample_one_spec pick n _ F (boxed_nodup lx ly data others b N) NE) as (A & _). apply A in J. apply BI in J as (d & K1 & K2 & K3 & K4); [|exact I]. split; [exact K4|]. exists d, b. auto.
    - intros b I. rewrite sample_eq in H. assert (E : s_failed s = map fin_box (filter (fun b => match boxed lx ly data others b with [] => true | _ => false end) boxes)) by (rewrite <- (ok_inj _ _ H); reflexivity).
      assert (BE : forall b', In b' boxes -> fin_box b' = fin_box b -> boxed lx ly data others b' = boxed lx ly data others b) by (intros b' _ Q; unfold boxed; rewrite Q; reflexivity).
      rewrite E, in_map_iff. split.
      + intros (b' & Q & J). apply filter_In in J as [J K]. rewrite (BE b' J Q) in K. destruct (boxed lx ly data others b) as [|z zs] eqn:B; [|discriminate]. intros d J2 IN.
        destruct others as [l|] eqn:O; [|exfalso; assert (Z0 : In (fst d) []) by (rewrite <- B; apply BI; [exact I|]; exists d; repeat split; try assumption; try apply IN; intros []); exact Z0].
        assert (DEC : {taken (Some l) (fst d)} + {~ taken (Some l) (fst d)}).
        { destruct (in_dec Z.eq_dec (fst d) (flat_map (fun o => match o with Some s => s | None => [] end) l)) as [T|T]; [left; apply taken_flat, T|right; intro T2; apply T, taken_flat, T2]. }
        destruct DEC as [T|T]; [exact T|]. exfalso. assert (Z0 : In (fst d) []) by (rewrite <- B; apply BI; [exact I|]; exists d; auto). exact Z0.
      + intros K. exists b. split; [reflexivity|]. apply filter_In. split; [exact I|]. destruct (boxed lx ly data others b) as [|z zs] eqn:B; [reflexivity|exfalso].
        assert (J : In z (boxed lx ly data others b)) by (rewrite B; left; reflexivity). apply BI in J as (d & J1 & J2 & J3 & J4); [|exact I]. apply J4. rewrite <- J2. apply K; assumption.
    - intros b d Pn I J IN T. assert (B : In (fst d) (boxed lx ly data others b)) by (apply BI; [exact I|]; exists d; auto).
      assert (NE : boxed lx ly data others b <> []) by (intro Q; rewrite Q in B; exact B).
      destruct (sample_one_spec pick n _ F (boxed_nodup lx ly data others b N) NE) as (A & _ & _ & _ & E). specialize (E Pn).
      destruct (sample_one pick n (boxed lx ly data others b)) as [|z zs] eqn:K; [congruence|]. assert (ZI : In z (boxed lx ly data others b)) by (apply A; left; reflexivity).
      apply BI in ZI as (d' & Q1 & Q2 & Q3 & Q4); [|exact I]. exists d'. split; [exact Q1|]. split; [exact Q3|]. apply H_indices. exists b. split; [exact I|]. split; [exact NE|]. rewrite K, Q2. left. reflexivity.
    - rewrite sample_eq in H. assert (E : s_indices s = sort_by Z.leb (flat_map (fun b => match boxed lx ly data others b with [] => [] | idx => sample_one pick n idx end) boxes)) by (rewrite <- (ok_inj _ _ H); reflexivity).
      rewrite E, sort_by_length. clear E H D P BI. induction boxes as [|b bs IH]; cbn [flat_map List.length]; [lia|]. rewrite app_length.
      assert (L : (List.length (match boxed lx ly data others b with [] => [] | idx => sample_one pick n idx end) <= n)%nat).
      { pose proof (boxed_nodup lx ly data others b N) as NB. destruct (boxed lx ly data others b) as [|z zs] eqn:B; [cbn; lia|]. apply (sample_one_spec pick n (z :: zs) F NB ltac:(discriminate)). }
      lia.
    - rewrite sample_eq in H. assert (E : s_indices s = sort_by Z.leb (flat_map (fun b => match boxed lx ly data others b with [] => [] | idx => sample_one pick n idx end) boxes)) by (rewrite <- (ok_inj _ _ H); reflexivity).
      rewrite E. assert (Q := sort_by_sorted Z.leb). eapply StronglySorted_ind with (P := fun l => StronglySorted Z.le l); [constructor| |apply Q].
      + intros a l _ IH FA. constructor; [exact IH|]. eapply Forall_impl; [|exact FA]. intros x. apply Z.leb_le.
      + intros a b. destruct (Z.leb_spec a b); [left; reflexivity|right; apply Z.leb_le; lia].
      + intros a b c. rewrite !Z.leb_le. lia.
    - rewrite sample_eq in H. assert (E : s_per_patch s = n) by (rewrite <- (ok_inj _ _ H); reflexivity). exact E.
  Qed.
  (** A box that holds at least n available data gives n of them: with a single such box, exactly n are sampled. *)
  Theorem C153_exactly_n : forall b held, boxes = [b] -> NoDup held -> (n <= List.length held)%nat -> (1 <= n)%nat ->
    (forall i, In i held -> ~ taken others i /\ exists d, In d data /\ fst d = i /\ inside lx ly b d) ->
    List.length (s_indices s) = n /\ NoDup (s_indices s).
  Proof.
    intros b held E NH L0 Pn HH.
    assert (Db : drawable lx ly b) by (apply D; rewrite E; left; reflexivity).
    assert (L : (n <= List.length (boxed lx ly data others b))%nat).
    { apply (Nat.le_trans _ _ _ L0). apply NoDup_incl_length; [exact NH|]. intros i I. destruct (HH i I) as (T & d & I1 & I2 & I3).
      apply boxed_in; [exact Db|]. exists d. split; [apply (avail_all _ _ _ P); split; [apply in_map, I1|rewrite I2; exact T]|]. auto. }
    rewrite sample_eq, E in H. cbn [flat_map] in H. rewrite app_nil_r in H.
    assert (NE : boxed lx ly data others b <> []) by (intro Q; rewrite Q in L; cbn in L; lia).
    destruct (sample_one_spec pick n _ F (boxed_nodup lx ly data others b N) NE) as (_ & A & _ & B & _).
    assert (Q : s_indices s = sort_by Z.leb (sample_one pick n (boxed lx ly data others b))) by (rewrite <- (ok_inj _ _ H); cbn [s_indices]; destruct (boxed lx ly data others b); [congruence|reflexivity]).
    rewrite Q, sort_by_length. split; [apply B, L|apply sort_by_NoDup, A].
  Qed.
End C153.
Theorem C153_fraction_refused : forall pick lx ly (data : list (row (T := XR))) boxes others n f, sample_data pick lx ly data boxes others n (Some f) = Err NotImplementedError.
Proof. reflexivity. Qed.
(** A concrete sampler that is fair: the first n labels, or the first one n times. *)
Definition first_n : sampler := fun replace n l => if replace then match l with [] => [] | x :: _ => repeat x n end else firstn n l.
Lemma first_n_fair : fair first_n.
Proof.
  split.
  - intros n l L N. unfold first_n. split; [intros x I; rewrite <- (firstn_skipn n l); apply in_app_iff; left; exact I|]. split; [apply firstn_length_le, L|].
    rewrite <- (firstn_skipn n l) in N. revert N. generalize (firstn n l) (skipn n l). clear. induction l as [|x l IH]; intros m N; [constructor|]. cbn in N. inversion N; subst. constructor; [intro I; apply H1, in_app_iff; left; exact I|apply (IH m), H2].
  - intros n [|x l] NE; [congruence|]. unfold first_n. split; [intros y I; apply repeat_spec in I; subst; left; reflexivity|apply repeat_length].
Qed.
Definition ex_data : list rrow := [(1%Z, (1, 1)); (2%Z, (2, 2)); (3%Z, (3, 3))].
Example C153_ex : NoDup (map fst ex_data) /\ drawable false false (mkR 0 2 0 2) /\ inside false false (mkR 0 2 0 2) (2%Z, (2, 2)) /\ ~ inside false false (mkR 0 2 0 2) (3%Z, (3, 3)).
Proof.
  split; [cbn; repeat constructor; cbn; intuition lia|]. split; [split; discriminate|]. unfold inside, shown. cbn. split; [lra|]. intros [[_ A] _]. lra.
Qed.

(* ================================================================ C154 *)
(** Data selected in another figure are not selected again, as long as all of them are among this figure's data ... *)
Theorem C154_never_twice_partial : forall pick lx ly data boxes others n s, fair pick -> NoDup (map fst data) -> (forall b, In b boxes -> drawable lx ly b) ->
  all_present data others -> sample pick lx ly data boxes others n = Ok s -> forall i, In i (s_indices s) -> ~ taken others i.
Proof. intros pick lx ly data boxes others n s F N D P H i I. apply (C153_sampled_data pick lx ly data boxes others n s F N D P H), I. Qed.
(** ... but one label that is not makes all the others selectable again. *)
Theorem C154_never_twice_refuted :
  ~ (forall pick lx ly data boxes others n s, fair pick -> NoDup (map fst data) -> (forall b, In b boxes -> drawable lx ly b) ->
      sample pick lx ly data boxes others n = Ok s -> forall i, In i (s_indices s) -> ~ taken others i).
Proof.
  intro H. assert (D : forall b, In b [mkR 0 5 0 5] -> drawable false false b) by (intros b [<-|[]]; split; discriminate).
  specialize (H first_n false false [(1%Z, (1, 1))] [mkR 0 5 0 5] (Some [Some [1%Z; 7%Z]]) 1%nat _ first_n_fair ltac:(cbn; repeat constructor; cbn; tauto) D (sample_eq _ _ _ _ _ _ _)).
  assert (B : boxed false false [(1%Z, (1, 1))] (Some [Some [1%Z; 7%Z]]) (mkR 0 5 0 5) = [1%Z]).
  { unfold boxed. change (avail [(1%Z, (1, 1))] (Some [Some [1%Z; 7%Z]])) with (map fin_r [(1%Z, (1, 1))]). cbn [map filter].
    assert (E : in_box false false (fin_box (mkR 0 5 0 5)) (fin_r (1%Z, (1, 1))) = true) by (apply in_box_spec; [split; discriminate|unfold inside, shown; cbn; lra]). rewrite E. reflexivity. }
  specialize (H 1%Z). cbn [s_indices flat_map] in H. rewrite B in H. apply H; [cbn; tauto|]. exists [1%Z; 7%Z]. cbn. tauto.
Qed.

(* ================================================================ C155 *)
(** Boxes that share no datum give every label at most once. *)
Lemma nodup_app {X} (a b : list X) : NoDup a -> NoDup b -> (forall x, In x a -> ~ In x b) -> NoDup (a ++ b).
Proof.
  induction a as [|x a IH]; intros A B C; [exact B|]. inversion A; subst. cbn. constructor; [|apply IH; [assumption|assumption|intros y I; apply C; right; exact I]].
  rewrite in_app_iff. intros [I|I]; [contradiction|]. apply (C x); [left; reflexivity|exact I].
Qed.
Theorem C155_each_once_partial : forall pick lx ly data boxes others n s, fair pick -> NoDup (map fst data) -> NoDup boxes -> (forall b, In b boxes -> drawable lx ly b) ->
  (forall b b' d, In b boxes -> In b' boxes -> In d data -> inside lx ly b d -> inside lx ly b' d -> b = b') ->
  sample pick lx ly data boxes others n = Ok s -> NoDup (s_indices s).
Proof.
  intros pick lx ly data boxes others n s F N NB D DIS H. rewrite sample_eq in H.
  assert (E : s_indices s = sort_by Z.leb (flat_map (fun b => match boxed lx ly data others b with [] => [] | idx => sample_one pick n idx end) boxes)) by (rewrite <- (ok_inj _ _ H); reflexivity).
  rewrite E. apply sort_by_NoDup. clear E H s. 
  assert (SUB : forall b i, In i (match boxed lx ly data others b with [] => [] | idx => sample_one pick n idx end) -> In i (boxed lx ly data others b)).
  { intros b i I. pose proof (boxed_nodup lx ly data others b N) as NBX. destruct (boxed lx ly data others b) as [|z zs]; [exact I|]. apply (sample_one_spec pick n (z :: zs) F NBX ltac:(discriminate)), I. }
  revert NB D DIS. induction boxes as [|b bs IH]; intros NB D DIS; cbn [flat_map]; [constructor|]. inversion NB as [|? ? NI NB']; subst. apply nodup_app.
  - pose proof (boxed_nodup lx ly data others b N) as NBX. destruct (boxed lx ly data others b) as [|z zs]; [constructor|]. apply (sample_one_spec pick n (z :: zs) F NBX ltac:(discriminate)).
  - apply IH; [exact NB'|intros c I; apply D; right; exact I|]. intros c c' d I I'. apply DIS; right; assumption.
  - intros i I J. apply in_flat_map in J as (c & C & J). apply SUB in I. apply SUB in J.
    apply boxed_in in I as (d & _ & I1 & I2 & I3); [|apply D; left; reflexivity]. apply boxed_in in J as (d' & _ & J1 & J2 & J3); [|apply D; right; exact C].
    assert (Q : d = d').
    { rewrite <- I2 in J2. clear - N I1 J1 J2. revert N I1 J1. induction data as [|e l IH]; intros N I1 J1; [destruct I1|]. cbn in N. inversion N; subst. destruct I1 as [<-|I1], J1 as [<-|J1]; [reflexivity| | |apply IH; assumption].
      - exfalso. apply H1. rewrite <- J2. apply in_map, J1.
      - exfalso. apply H1. rewrite J2. apply in_map, I1. }
    subst d'. apply NI. rewrite (DIS b c d); [exact C|left; reflexivity|right; exact C|exact I1|exact I3|exact J3].
Qed.
(** A datum in two boxes is counted twice. *)
Theorem C155_each_once_refuted : exists s, sample first_n false false [(1%Z, (1, 1))] [mkR 0 2 0 2; mkR 0 3 0 3] None 1 = Ok s /\ s_indices s = [1; 1]%Z.
Proof.
  rewrite sample_eq. eexists. split; [reflexivity|]. cbn [s_indices flat_map].
  assert (B : forall c, 1 < c -> boxed false false [(1%Z, (1, 1))] None (mkR 0 c 0 c) = [1%Z]).
  { intros c P. unfold boxed. change (avail [(1%Z, (1, 1))] None) with (map fin_r [(1%Z, (1, 1))]). cbn [map filter].
    assert (E : in_box false false (fin_box (mkR 0 c 0 c)) (fin_r (1%Z, (1, 1))) = true) by (apply in_box_spec; [split; discriminate|unfold inside, shown; cbn; lra]). rewrite E. reflexivity. }
  rewrite !B by lra. reflexivity.
Qed.
Example C155_ex : inside false false (mkR 0 2 0 2) (1%Z, (1, 1)) /\ ~ inside false false (mkR 1 2 1 2) (1%Z, (1, 1)).
Proof. unfold inside, shown. cbn. split; [lra|]. intros [[A _] _]. lra. Qed.
