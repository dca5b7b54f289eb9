(** C65, C112: extrema from threshold crossings. *)
From Coq Require Import List String Bool Arith ZArith Lia Permutation Sorted.
From Verif Require Import Py Sort ExtremaCalc.
Import ListNotations.
Open Scope Z_scope.

(* ---------------------------------------------------------------- specification *)
(** A run: consecutive samples all above (true) or all below (false) the threshold. *)
Record run := mkRun { r_kind : bool; r_first : Z * Z; r_rest : list (Z * Z) }.
Definition samples (r : run) : list (Z * Z) := r_first r :: r_rest r.
Definition side (th : Z) (k : bool) (x : Z) : Prop := if k then th < x else x < th.
Definition measured (l : list (Z * Z)) : list sample := map (fun s => (fst s, Some (snd s))) l.
Definition series (runs : list run) : list sample := measured (flat_map samples runs).
Fixpoint alternate (ks : list bool) : Prop := match ks with a :: (b :: _) as r => b = negb a /\ alternate r | _ => True end.
Fixpoint increasing (ts : list Z) : Prop := match ts with a :: (b :: _) as r => a < b /\ increasing r | _ => True end.
(** The most extreme sample of a list. *)
Definition extreme (k : bool) (l : list (Z * Z)) (t : Z) : Prop :=
  exists x, In (t, x) l /\ forall s, In s l -> if k then snd s <= x else x <= snd s.

(* ---------------------------------------------------------------- crossings *)
Lemma side_high th k x : side th k x -> high th (Some x) = k.
Proof. unfold side, high. destruct k; intros H; [apply Z.ltb_lt; lia|apply Z.ltb_ge; lia]. Qed.
Lemma side_low th k x : side th k x -> low th (Some x) = negb k.
Proof. unfold side, low. destruct k; intros H; [apply Z.ltb_ge; lia|apply Z.ltb_lt; lia]. Qed.
Lemma crossings_same th k l rest : Forall (fun s => side th k (snd s)) l ->
  crossings th (Some (k, negb k)) (measured l ++ rest) = crossings th (Some (k, negb k)) rest.
Proof.
  induction l as [|[t x] l IH]; intros H; [reflexivity|]. inversion H; subst. cbn [measured map app fst snd crossings].
  rewrite (side_high th k x), (side_low th k x) by assumption. cbn [fst snd]. rewrite !Bool.eqb_reflx. cbn. apply IH; assumption.
Qed.
Lemma measured_app a b : measured (a ++ b) = measured a ++ measured b.
Proof. apply map_app. Qed.
Lemma crossings_runs th runs : Forall (fun r => Forall (fun s => side th (r_kind r) (snd s)) (samples r)) runs ->
  alternate (map r_kind runs) ->
  forall prev, match runs, prev with r :: _, Some p => p = (negb (r_kind r), r_kind r) | _, _ => True end ->
  crossings th prev (series runs) = map (fun r => fst (r_first r)) runs.
Proof.
  induction runs as [|r runs IH]; intros Hs Ha prev Hp; [reflexivity|]. inversion Hs as [|? ? Hr Hs']; subst.
  unfold series. cbn [flat_map map]. rewrite measured_app. unfold samples at 1. unfold samples in Hr. inversion Hr as [|? ? Hf Hrest]; subst.
  destruct (r_first r) as [t x] eqn:Ef. cbn [measured map app fst snd crossings].
  cbn [snd] in Hf. rewrite (side_high th (r_kind r) x), (side_low th (r_kind r) x) by exact Hf. cbn [fst snd].
  assert (Hd : match prev with None => true | Some p => negb (Bool.eqb (r_kind r) (fst p)) || negb (Bool.eqb (negb (r_kind r)) (snd p)) end = true).
  { destruct prev as [p|]; [|reflexivity]. subst p. cbn. destruct (r_kind r); reflexivity. }
  rewrite Hd. f_equal. change (map (fun s : Z * Z => (fst s, Some (snd s))) (r_rest r)) with (measured (r_rest r)).
  rewrite crossings_same by exact Hrest. apply IH; [exact Hs'| |].
  - cbn [map] in Ha. destruct (map r_kind runs); [exact I|apply Ha].
  - destruct runs as [|r2 runs]; [exact I|]. cbn [map] in Ha. destruct Ha as [Ha _]. rewrite Ha. destruct (r_kind r); reflexivity.
Qed.

(* ---------------------------------------------------------------- increasing times *)
Lemma increasing_strong l : increasing l -> StronglySorted Z.lt l.
Proof.
  induction l as [|a [|b l] IH]; intros H; [constructor|repeat constructor|]. destruct H as [Hab H]. specialize (IH H).
  constructor; [exact IH|]. constructor; [exact Hab|]. inversion IH as [|? ? _ Hf]; subst. eapply Forall_impl; [|exact Hf]. cbn. lia.
Qed.
Lemma strong_increasing l : StronglySorted Z.lt l -> increasing l.
Proof.
  induction l as [|a [|b l] IH]; intros H; [exact I|exact I|]. inversion H as [|? ? H' Hf]; subst. inversion Hf; subst.
  split; [assumption|apply IH; assumption].
Qed.
Lemma SS_app {A} (R : A -> A -> Prop) a b : StronglySorted R (a ++ b) <->
  StronglySorted R a /\ StronglySorted R b /\ (forall x y, In x a -> In y b -> R x y).
Proof.
  induction a as [|x a IH]; cbn [app].
  - split; [intros H; repeat split; [constructor|exact H|intros ? ? []]|tauto].
  - split.
    + intros H. inversion H as [|? ? H' Hf]; subst. apply IH in H'. destruct H' as (Ha & Hb & Hc). rewrite Forall_app in Hf. destruct Hf as [F1 F2].
      repeat split; [constructor; assumption|exact Hb|]. intros u v [->|Hu] Hv; [rewrite Forall_forall in F2; apply F2, Hv|apply Hc; assumption].
    + intros (Ha & Hb & Hc). inversion Ha as [|? ? Ha' Hf]; subst. constructor.
      * apply IH. repeat split; [exact Ha'|exact Hb|]. intros u v Hu Hv. apply Hc; [right; exact Hu|exact Hv].
      * rewrite Forall_app. split; [exact Hf|]. apply Forall_forall. intros v Hv. apply Hc; [left; reflexivity|exact Hv].
Qed.
Lemma filter_none {A} (f : A -> bool) l : (forall x, In x l -> f x = false) -> filter f l = [].
Proof. induction l as [|a l IH]; intros H; [reflexivity|]. cbn. rewrite H by (left; reflexivity). apply IH. intros x Hx. apply H. right; exact Hx. Qed.
Lemma filter_every {A} (f : A -> bool) l : (forall x, In x l -> f x = true) -> filter f l = l.
Proof. induction l as [|a l IH]; intros H; [reflexivity|]. cbn. rewrite H by (left; reflexivity). f_equal. apply IH. intros x Hx. apply H. right; exact Hx. Qed.

(** The samples that end up in the group of each run: its own but the first, and the first of the next run. *)
Fixpoint groups (runs : list run) : list (list (Z * Z)) :=
  match runs with
  | [] => []
  | r :: rest => (r_rest r ++ match rest with [] => [] | r2 :: _ => [r_first r2] end) :: groups rest
  end.
Lemma times_measured l : map fst (measured l) = map fst l.
Proof. unfold measured. rewrite map_map. reflexivity. Qed.
Lemma filter_window (P M Q : list sample) (f : sample) y :
  StronglySorted Z.lt (map fst (P ++ f :: M ++ Q)) -> (forall s, In s M -> fst s <= y) -> (forall s, In s Q -> y < fst s) ->
  filter (fun s => (fst f <? fst s) && (fst s <=? y)) (P ++ f :: M ++ Q) = M.
Proof.
  intros Hs HM HQ. rewrite map_app in Hs. apply SS_app in Hs. destruct Hs as (_ & Hs & HP). cbn [map] in Hs. inversion Hs as [|? ? Hs' Hf]; subst.
  rewrite map_app, Forall_app in Hf. destruct Hf as [F1 F2].
  rewrite filter_app. cbn [filter]. rewrite Z.ltb_irrefl. cbn [andb]. rewrite filter_app.
  rewrite (filter_none _ P), (filter_every _ M), (filter_none _ Q); [rewrite app_nil_r; reflexivity| | |].
  - intros s Hi. specialize (HQ s Hi). apply andb_false_iff. right. apply Z.leb_gt. exact HQ.
  - intros s Hi. rewrite Forall_forall in F1. specialize (F1 (fst s) (in_map fst _ _ Hi)). specialize (HM s Hi). apply andb_true_iff.
    rewrite Z.ltb_lt, Z.leb_le. split; assumption.
  - intros s Hi. specialize (HP (fst s) (fst f) (in_map fst _ _ Hi) (or_introl eq_refl)). apply andb_false_iff. left. apply Z.ltb_ge. lia.
Qed.
Lemma cut_runs raw1 runs : forall P D, D = P ++ series runs -> StronglySorted Z.lt (map fst D) -> (forall s, In s D -> fst s <= raw1) ->
  cut (map (fun r => fst (r_first r)) runs ++ [raw1]) D = map measured (groups runs).
Proof.
  induction runs as [|r runs IH]; intros P D HD Hs Hmax; [reflexivity|].
  destruct runs as [|r2 runs].
  - cbn [map app cut groups]. f_equal. rewrite app_nil_r.
    set (f := (fst (r_first r), Some (snd (r_first r)))).
    replace D with (P ++ f :: measured (r_rest r) ++ []) in * by (rewrite app_nil_r, HD; unfold series; cbn [flat_map]; rewrite app_nil_r; reflexivity).
    change (fst (r_first r)) with (fst f). apply filter_window; [exact Hs| |intros ? []].
    intros s Hi. apply Hmax. apply in_or_app. right. right. rewrite app_nil_r. exact Hi.
  - change (cut (map (fun r => fst (r_first r)) (r :: r2 :: runs) ++ [raw1]) D)
      with (filter (fun s => (fst (r_first r) <? fst s) && (fst s <=? fst (r_first r2))) D :: cut (map (fun r => fst (r_first r)) (r2 :: runs) ++ [raw1]) D).
    change (groups (r :: r2 :: runs)) with ((r_rest r ++ [r_first r2]) :: groups (r2 :: runs)). cbn [map]. f_equal.
    + set (f := (fst (r_first r), Some (snd (r_first r)))).
      set (Q := measured (r_rest r2) ++ series runs).
      assert (HD' : D = P ++ f :: measured (r_rest r ++ [r_first r2]) ++ Q).
      { rewrite HD. f_equal. unfold series. cbn [flat_map]. unfold samples at 1 2. cbn [measured map app]. f_equal.
        unfold Q, series. rewrite !measured_app. rewrite <- app_assoc. f_equal. unfold measured. cbn [map app]. rewrite map_app. reflexivity. }
      rewrite HD' in *. change (fst (r_first r)) with (fst f). apply filter_window; [exact Hs| |].
      * intros s Hi. rewrite map_app in Hs. apply SS_app in Hs. destruct Hs as (_ & Hs & _). cbn [map] in Hs. inversion Hs as [|? ? Hs' _]; subst.
        rewrite map_app in Hs'. apply SS_app in Hs'. destruct Hs' as (Hs' & _ & _). rewrite measured_app, map_app in Hs'. apply SS_app in Hs'.
        destruct Hs' as (_ & _ & Hlt). rewrite measured_app in Hi. apply in_app_or in Hi. destruct Hi as [Hi|[<-|[]]]; [|cbn; lia].
        specialize (Hlt (fst s) (fst (r_first r2)) (in_map fst _ _ Hi) (or_introl eq_refl)). lia.
      * intros s Hi. rewrite map_app in Hs. apply SS_app in Hs. destruct Hs as (_ & Hs & _). cbn [map] in Hs. inversion Hs as [|? ? Hs' _]; subst.
        rewrite map_app in Hs'. apply SS_app in Hs'. destruct Hs' as (_ & _ & Hlt). apply Hlt; [|apply in_map, Hi].
        rewrite measured_app, map_app. apply in_or_app. right. left. reflexivity.
    + apply (IH (P ++ measured (samples r)) D); [|exact Hs|exact Hmax].
      rewrite HD, <- app_assoc. f_equal. unfold series. cbn [flat_map]. rewrite measured_app. reflexivity.
Qed.

(* ---------------------------------------------------------------- one group *)
Lemma clean_measured l : clean (measured l) = l.
Proof. induction l as [|[t x] l IH]; [reflexivity|]. cbn in *. f_equal. exact IH. Qed.
Lemma best_max l : forall acc, let b := best (fun a b => b <? a) acc l in In b (acc :: l) /\ forall s, In s (acc :: l) -> snd s <= snd b.
Proof.
  induction l as [|s l IH]; intros acc; cbn [best]; [split; [left; reflexivity|intros s [<-|[]]; lia]|].
  specialize (IH (if snd acc <? snd s then s else acc)). cbv zeta in IH. destruct IH as [H1 H2]. split.
  - destruct H1 as [H1|H1]; [|right; right; exact H1]. rewrite <- H1. destruct (snd acc <? snd s); [right; left; reflexivity|left; reflexivity].
  - intros u [<-|[<-|Hu]].
    + specialize (H2 _ (or_introl eq_refl)). destruct (snd acc <? snd s) eqn:E; [apply Z.ltb_lt in E; lia|exact H2].
    + specialize (H2 _ (or_introl eq_refl)). destruct (snd acc <? snd s) eqn:E; [exact H2|apply Z.ltb_ge in E; lia].
    + apply H2. right. exact Hu.
Qed.
Lemma best_min l : forall acc, let b := best (fun a b => a <? b) acc l in In b (acc :: l) /\ forall s, In s (acc :: l) -> snd b <= snd s.
Proof.
  induction l as [|s l IH]; intros acc; cbn [best]; [split; [left; reflexivity|intros s [<-|[]]; lia]|].
  specialize (IH (if snd s <? snd acc then s else acc)). cbv zeta in IH. destruct IH as [H1 H2]. split.
  - destruct H1 as [H1|H1]; [|right; right; exact H1]. rewrite <- H1. destruct (snd s <? snd acc); [right; left; reflexivity|left; reflexivity].
  - intros u [<-|[<-|Hu]].
    + specialize (H2 _ (or_introl eq_refl)). destruct (snd s <? snd acc) eqn:E; [apply Z.ltb_lt in E; lia|exact H2].
    + specialize (H2 _ (or_introl eq_refl)). destruct (snd s <? snd acc) eqn:E; [exact H2|apply Z.ltb_ge in E; lia].
    + apply H2. right. exact Hu.
Qed.
Lemma group_runs th k l o : Forall (fun s => side th k (snd s)) l -> Forall (fun s => side th (negb k) (snd s)) o ->
  (2 <= List.length l)%nat -> (List.length o <= 1)%nat ->
  exists t, group_extremum th (measured (l ++ o)) = Ok (Some (t, k)) /\ extreme k l t.
Proof.
  intros Hl Ho H2 H1. destruct l as [|s l]; [cbn in H2; lia|]. unfold group_extremum. rewrite clean_measured. cbn [app].
  assert (Cl : forall (u : list (Z * Z)) kk, Forall (fun s => side th kk (snd s)) u ->
     filter (fun s => th <? snd s) u = (if kk then u else []) /\ filter (fun s => negb (th <? snd s)) u = (if kk then [] else u)).
  { intros u kk Hu. rewrite Forall_forall in Hu. destruct kk; split; (apply filter_every || apply filter_none); intros x Hx; specialize (Hu x Hx); cbn in Hu.
    - apply Z.ltb_lt; exact Hu.
    - apply negb_false_iff, Z.ltb_lt; exact Hu.
    - apply Z.ltb_ge; lia.
    - apply negb_true_iff, Z.ltb_ge; lia. }
  destruct (Cl _ _ Hl) as [A1 A2]. destruct (Cl _ _ Ho) as [B1 B2].
  change (s :: l ++ o) with ((s :: l) ++ o). rewrite !filter_app, A1, A2, B1, B2.
  rewrite Forall_forall in Hl, Ho.
  assert (Ls : (S (S (List.length (tl l))) = List.length (s :: l))%nat) by (destruct l; cbn in *; lia).
  destruct k; cbn [negb]; cbn [app].
  - rewrite app_nil_r, <- Ls. destruct (best_max (l ++ o) s) as [I M].
    assert (E : (match List.length o with O => Ok (Some (fst (best (fun a b => b <? a) s (l ++ o)), true)) | 1%nat => Ok (Some (fst (best (fun a b => b <? a) s (l ++ o)), true)) | _ => Err AssertionError end) = Ok (Some (fst (best (fun a b => b <? a) s (l ++ o)), true))).
    { destruct (List.length o) as [|[|]]; [reflexivity..|lia]. }
    eexists. split; [exact E|]. set (b := best _ s (l ++ o)) in *. exists (snd b). rewrite <- surjective_pairing.
    assert (Ib : In b (s :: l)).
    { change (s :: l ++ o) with ((s :: l) ++ o) in I. apply in_app_or in I. destruct I as [I|I]; [exact I|].
      specialize (Ho b I). cbn in Ho. specialize (M s (or_introl eq_refl)). specialize (Hl s (or_introl eq_refl)). cbn in Hl. lia. }
    split; [exact Ib|]. intros u Hu. apply M. change (s :: l ++ o) with ((s :: l) ++ o). apply in_or_app. left. exact Hu.
  - rewrite app_nil_r, <- Ls. destruct (best_min (l ++ o) s) as [I M].
    assert (E : (match List.length o with O => Ok (Some (fst (best (fun a b => a <? b) s (l ++ o)), false)) | 1%nat => Ok (Some (fst (best (fun a b => a <? b) s (l ++ o)), false)) | _ => Err AssertionError end) = Ok (Some (fst (best (fun a b => a <? b) s (l ++ o)), false))).
    { destruct (List.length o) as [|[|]]; [reflexivity..|lia]. }
    eexists. split; [destruct (List.length o) as [|[|n]]; [reflexivity..|lia]|]. set (b := best _ s (l ++ o)) in *. exists (snd b). rewrite <- surjective_pairing.
    assert (Ib : In b (s :: l)).
    { change (s :: l ++ o) with ((s :: l) ++ o) in I. apply in_app_or in I. destruct I as [I|I]; [exact I|].
      specialize (Ho b I). cbn in Ho. specialize (M s (or_introl eq_refl)). specialize (Hl s (or_introl eq_refl)). cbn in Hl. lia. }
    split; [exact Ib|]. intros u Hu. apply M. change (s :: l ++ o) with ((s :: l) ++ o). apply in_or_app. left. exact Hu.
Qed.

(* ---------------------------------------------------------------- all groups *)
Lemma Forall2_in_r {A B} (R : A -> B -> Prop) l m : Forall2 R l m -> forall b, In b m -> exists a, In a l /\ R a b.
Proof. induction 1; intros b0 Hb; [destruct Hb|]. destruct Hb as [<-|Hb]; [eexists; split; [left; reflexivity|assumption]|]. destruct (IHForall2 _ Hb) as [a [H1 H2]]. exists a. split; [right; exact H1|exact H2]. Qed.
Lemma mapM_groups th runs :
  Forall (fun r => Forall (fun s => side th (r_kind r) (snd s)) (samples r) /\ (2 <= List.length (r_rest r))%nat) runs ->
  alternate (map r_kind runs) ->
  exists ext, mapM (group_extremum th) (map measured (groups runs)) = Ok (map Some ext)
    /\ Forall2 (fun r e => snd e = r_kind r /\ extreme (r_kind r) (r_rest r) (fst e)) runs ext.
Proof.
  induction runs as [|r runs IH]; intros Hg Ha; [exists []; split; [reflexivity|constructor]|].
  inversion Hg as [|? ? [Hr Hl] Hg']; subst.
  assert (Ha' : alternate (map r_kind runs)) by (cbn [map] in Ha; destruct (map r_kind runs); [exact I|apply Ha]).
  destruct (IH Hg' Ha') as (ext & E & F).
  destruct (group_runs th (r_kind r) (r_rest r) (match runs with [] => [] | r2 :: _ => [r_first r2] end)) as (t & Et & Hx).
  - unfold samples in Hr. inversion Hr; assumption.
  - destruct runs as [|r2 runs]; constructor; [|constructor]. inversion Hg' as [|? ? [Hr2 _] _]; subst. unfold samples in Hr2. inversion Hr2 as [|? ? Hf _]; subst.
    cbn [map] in Ha. destruct Ha as [Ha _]. rewrite <- Ha. exact Hf.
  - exact Hl.
  - destruct runs; cbn; lia.
  - exists ((t, r_kind r) :: ext). cbn [groups map mapM]. rewrite Et. cbn [bind]. rewrite E. split; [reflexivity|].
    constructor; [split; [reflexivity|exact Hx]|exact F].
Qed.

Lemma pick_filter k ext : pick k (map Some ext) = map fst (filter (fun e => Bool.eqb (snd e) k) ext).
Proof.
  unfold pick. induction ext as [|[t b] ext IH]; [reflexivity|]. cbn [map flat_map filter snd]. rewrite IH. destruct (Bool.eqb b k); reflexivity.
Qed.
Lemma filter_partition {A} (f : A -> bool) l : Permutation (filter f l ++ filter (fun x => negb (f x)) l) l.
Proof.
  induction l as [|a l IH]; [constructor|]. cbn. destruct (f a); cbn.
  - constructor. exact IH.
  - eapply perm_trans; [apply Permutation_sym, Permutation_middle|]. constructor. exact IH.
Qed.
Lemma time_total a b : time_leb a b = true \/ time_leb b a = true.
Proof. unfold time_leb. rewrite !Z.leb_le. lia. Qed.
Lemma time_trans a b c : time_leb a b = true -> time_leb b c = true -> time_leb a c = true.
Proof. unfold time_leb. rewrite !Z.leb_le. lia. Qed.
Lemma time_sorted_unique l1 : forall l2, StronglySorted Z.lt (map fst l1) -> StronglySorted (leP time_leb) l2 -> Permutation l1 l2 -> l1 = l2.
Proof.
  induction l1 as [|x l1 IH]; intros l2 H1 H2 HP.
  - apply Permutation_nil in HP; subst; reflexivity.
  - destruct l2 as [|y l2]; [apply Permutation_sym, Permutation_nil in HP; discriminate|].
    cbn [map] in H1. inversion H1 as [|? ? Hs1 Hf1]; inversion H2 as [|? ? Hs2 Hf2]; subst. rewrite Forall_forall in Hf1, Hf2.
    assert (x = y).
    { assert (Hy : In y (x :: l1)) by (apply (Permutation_in _ (Permutation_sym HP)); left; reflexivity).
      destruct Hy as [E|Hy]; [exact E|]. specialize (Hf1 _ (in_map fst _ _ Hy)).
      assert (Hx : In x (y :: l2)) by (apply (Permutation_in _ HP); left; reflexivity).
      destruct Hx as [E|Hx]; [symmetry; exact E|]. specialize (Hf2 _ Hx). unfold leP, time_leb in Hf2. apply Z.leb_le in Hf2. lia. }
    subst y. f_equal. apply IH; auto. eapply Permutation_cons_inv; exact HP.
Qed.

(* ---------------------------------------------------------------- extrema at least 1000 days apart *)
(** Two runs with one between them are more than 1000 days apart. *)
Fixpoint lasting (runs : list run) : Prop :=
  match runs with
  | r1 :: (r2 :: r3 :: _) as rest =>
      (forall s s', In s (samples r1) -> In s' (samples r3) -> 1000 * 86400 < fst s' - fst s) /\ lasting rest
  | _ => True
  end.
Fixpoint gap2 (e : list (Z * bool)) : Prop :=
  match e with e1 :: (e2 :: e3 :: _) as r => separation < fst e3 - fst e1 /\ gap2 r | _ => True end.
Definition next_far (p : Z) (k : bool) (e : list (Z * bool)) : Prop :=
  match e with
  | [] => True
  | a :: r => if Bool.eqb (snd a) k then separation < fst a - p else match r with [] => True | b :: _ => separation < fst b - p end
  end.
Lemma far_all k : forall e p, alternate (map snd e) -> gap2 e -> next_far p k e ->
  far_from_previous p (map fst (filter (fun x => Bool.eqb (snd x) k) e)) = map fst (filter (fun x => Bool.eqb (snd x) k) e).
Proof.
  induction e as [|a e IH]; intros p Ha Hg Hn; [reflexivity|].
  assert (Ha' : alternate (map snd e)) by (cbn [map] in Ha; destruct (map snd e); [exact I|apply Ha]).
  assert (Hg' : gap2 e) by (destruct e as [|b [|c e]]; [exact I|exact I|apply Hg]).
  cbn [filter]. cbn [next_far] in Hn. destruct (Bool.eqb (snd a) k) eqn:E.
  - cbn [map far_from_previous]. apply Z.ltb_lt in Hn. rewrite Hn. f_equal. apply IH; [exact Ha'|exact Hg'|].
    destruct e as [|b [|c e]]; [exact I| |].
    + cbn. destruct (Bool.eqb (snd b) k) eqn:Eb; [|exact I]. exfalso. cbn in Ha. destruct Ha as [Ha _]. rewrite Ha in Eb.
      apply eqb_prop in E. rewrite <- E in Eb. destruct (snd a); discriminate.
    + cbn [next_far]. destruct (Bool.eqb (snd b) k) eqn:Eb; [|apply Hg]. exfalso. cbn in Ha. destruct Ha as [Ha _]. rewrite Ha in Eb.
      apply eqb_prop in E. rewrite <- E in Eb. destruct (snd a); discriminate.
  - apply IH; [exact Ha'|exact Hg'|]. destruct e as [|b e]; [exact I|]. cbn [next_far].
    replace (Bool.eqb (snd b) k) with true; [exact Hn|]. cbn in Ha. destruct Ha as [Ha _]. rewrite Ha. destruct (snd a), k; cbn in *; congruence.
Qed.
Lemma apart_all k e : alternate (map snd e) -> gap2 e -> (2 <= List.length e)%nat ->
  apart (map fst (filter (fun x => Bool.eqb (snd x) k) e)) = Ok (map fst (filter (fun x => Bool.eqb (snd x) k) e)).
Proof.
  intros Ha Hg Hl. destruct e as [|a [|b e]]; [cbn in Hl; lia|cbn in Hl; lia|].
  assert (Ha' : alternate (map snd (b :: e))) by apply Ha.
  assert (Hg' : gap2 (b :: e)) by (destruct e; [exact I|apply Hg]).
  assert (Hb : snd b = negb (snd a)) by apply Ha.
  destruct (Bool.eqb (snd a) k) eqn:E.
  - assert (Hf : filter (fun x => Bool.eqb (snd x) k) (a :: b :: e) = a :: filter (fun x => Bool.eqb (snd x) k) (b :: e))
      by (cbn [filter]; rewrite E; reflexivity).
    rewrite Hf. cbn [map apart]. do 2 f_equal. apply far_all; [exact Ha'|exact Hg'|].
    cbn [next_far]. rewrite Hb. replace (Bool.eqb (negb (snd a)) k) with false by (destruct (snd a), k; cbn in *; congruence).
    destruct e; [exact I|apply Hg].
  - assert (Eb : Bool.eqb (snd b) k = true) by (rewrite Hb; destruct (snd a), k; cbn in *; congruence).
    assert (Hf : filter (fun x => Bool.eqb (snd x) k) (a :: b :: e) = b :: filter (fun x => Bool.eqb (snd x) k) e)
      by (cbn [filter]; rewrite E, Eb; reflexivity).
    rewrite Hf. cbn [map apart]. do 2 f_equal. apply far_all.
    + cbn [map] in Ha'. destruct (map snd e) eqn:Em; [exact I|]. apply Ha'.
    + destruct e as [|c [|d e]]; [exact I|exact I|apply Hg'].
    + destruct e as [|c e]; [exact I|]. cbn [next_far]. assert (Hc : snd c = negb (snd b)) by apply Ha'. rewrite Hc.
      replace (Bool.eqb (negb (snd b)) k) with false by (rewrite Hb; destruct (snd a), k; cbn in *; congruence).
      destruct e; [exact I|apply Hg'].
Qed.

(* ---------------------------------------------------------------- C65 *)
Definition usual_name (name : string) : Prop := ~ In name ["LymanAlpha"; "f107"; "mg_index"; "sd_70"; "sl_70"]%string.
Lemma usual_max name l : usual_name name -> trim_max name l = l.
Proof.
  intros H. unfold trim_max. destruct (existsb _ _) eqn:E; [|reflexivity]. exfalso. apply H. apply existsb_exists in E.
  destruct E as [x [Hx E]]. apply String.eqb_eq in E. subst x. cbn in *. tauto.
Qed.
Lemma usual_min name l : usual_name name -> trim_min name l = l.
Proof.
  intros H. unfold trim_min. destruct (existsb _ _) eqn:E.
  - exfalso. apply H. apply existsb_exists in E. destruct E as [x [Hx E]]. apply String.eqb_eq in E. subst x. cbn in *. tauto.
  - destruct (String.eqb_spec name "sl_70") as [->|]; [|reflexivity]. exfalso. apply H. cbn. tauto.
Qed.
Lemma ext_in_run (runs : list run) (ext : list (Z * bool)) : Forall2 (fun r e => snd e = r_kind r /\ extreme (r_kind r) (r_rest r) (fst e)) runs ext ->
  Forall2 (fun r e => In (fst e) (map fst (samples r))) runs ext.
Proof.
  induction 1 as [|r e runs ext [_ [x [Hi _]]] _ IH]; constructor; [|exact IH]. right. apply (in_map fst _ _ Hi).
Qed.
Lemma ext_increasing runs (ext : list (Z * bool)) : StronglySorted Z.lt (map fst (flat_map samples runs)) -> Forall2 (fun r e => In (fst e) (map fst (samples r))) runs ext ->
  StronglySorted Z.lt (map fst ext).
Proof.
  intros Hs HF. induction HF as [|r e runs ext He HF IH]; [constructor|]. cbn [flat_map] in Hs. rewrite map_app in Hs.
  apply SS_app in Hs. destruct Hs as (_ & Hs & Hlt). cbn [map]. constructor; [apply IH, Hs|].
  apply Forall_forall. intros t Ht. apply in_map_iff in Ht. destruct Ht as [e' [<- Hi]].
  destruct (Forall2_in_r _ _ _ HF e' Hi) as [r' [Hr' Hin]]. apply Hlt; [exact He|].
  apply in_map_iff in Hin. destruct Hin as [s [E Hin]]. rewrite <- E. apply in_map. apply in_flat_map. exists r'. auto.
Qed.
Lemma ext_gap runs (ext : list (Z * bool)) : lasting runs -> Forall2 (fun r e => In (fst e) (map fst (samples r))) runs ext -> gap2 ext.
Proof.
  intros Hl HF. induction HF as [|r e runs ext He HF IH]; [exact I|].
  destruct HF as [|r2 e2 runs ext He2 HF]; [exact I|]. destruct HF as [|r3 e3 runs ext He3 HF]; [exact I|].
  cbn [gap2]. destruct Hl as [Hl Hl']. split; [|apply IH, Hl'].
  apply in_map_iff in He. destruct He as [s [<- Hi]]. apply in_map_iff in He3. destruct He3 as [s' [<- Hi']]. exact (Hl s s' Hi Hi').
Qed.
Lemma kinds_eq (runs : list run) (ext : list (Z * bool)) : Forall2 (fun r e => snd e = r_kind r /\ extreme (r_kind r) (r_rest r) (fst e)) runs ext -> map snd ext = map r_kind runs.
Proof. induction 1 as [|r e runs ext [H _] _ IH]; [reflexivity|]. cbn. congruence. Qed.

(** A series without missing values that crosses the threshold cleanly: runs of at least three samples above and below in turn,
    at least two of them, each pair of runs with one between more than 1000 days apart. Then there is one extremum for each run, of
    its kind, in the order of time, Min and Max in turn: the largest (smallest) of the run's samples but the first. *)
Theorem C65_one_extremum_per_run_partial name th runs raw0 raw1 :
  usual_name name -> (2 <= List.length runs)%nat ->
  Forall (fun r => Forall (fun s => side th (r_kind r) (snd s)) (samples r) /\ (3 <= List.length (samples r))%nat) runs ->
  alternate (map r_kind runs) -> lasting runs ->
  increasing (map fst (series runs)) ->
  (forall s, In s (series runs) -> fst s <= raw1) -> (forall s r, series runs = s :: r -> fst s <= raw0) ->
  exists ext, find_extrema name th (series runs) raw0 raw1 = Ok ext
    /\ Forall2 (fun r e => snd e = r_kind r /\ extreme (r_kind r) (r_rest r) (fst e)) runs ext
    /\ alternate (map snd ext) /\ increasing (map fst ext).
Proof.
  intros Hn Hlen Hg Ha Hlast Hinc Hraw1 Hraw0.
  apply increasing_strong in Hinc.
  assert (Hg2 : Forall (fun r => Forall (fun s => side th (r_kind r) (snd s)) (samples r) /\ (2 <= List.length (r_rest r))%nat) runs).
  { eapply Forall_impl; [|exact Hg]. cbn. intros r [H1 H2]. split; [exact H1|lia]. }
  assert (Hsides : Forall (fun r => Forall (fun s => side th (r_kind r) (snd s)) (samples r)) runs).
  { eapply Forall_impl; [|exact Hg]. cbn. tauto. }
  destruct (mapM_groups th runs Hg2 Ha) as (ext & E & HF).
  pose proof (ext_in_run runs ext HF) as Hin.
  assert (Hs' : StronglySorted Z.lt (map fst (flat_map samples runs))) by (unfold series in Hinc; rewrite times_measured in Hinc; exact Hinc).
  pose proof (ext_increasing runs ext Hs' Hin) as Hext.
  pose proof (ext_gap runs ext Hlast Hin) as Hgap.
  pose proof (kinds_eq runs ext HF) as Hk.
  assert (Hla : (2 <= List.length ext)%nat) by (rewrite <- (map_length snd ext), Hk, map_length; exact Hlen).
  assert (Hal : alternate (map snd ext)) by (rewrite Hk; exact Ha).
  exists ext. repeat split; [|exact HF|exact Hal|apply strong_increasing, Hext].
  unfold find_extrema. rewrite (crossings_runs th runs Hsides Ha None) by (destruct runs; exact I).
  assert (Hb : bins (map (fun r => fst (r_first r)) runs) raw0 raw1 = Ok (map (fun r => fst (r_first r)) runs ++ [raw1])).
  { destruct runs as [|r runs]; [cbn in Hlen; lia|]. cbn [map bins].
    assert (H0 : raw0 <? fst (r_first r) = false).
    { apply Z.ltb_ge. unfold series in Hraw0. cbn [flat_map samples app measured map] in Hraw0. exact (Hraw0 _ _ eq_refl). }
    assert (Hfirsts : forall rs, StronglySorted Z.lt (map fst (flat_map samples rs)) -> StronglySorted Z.lt (map (fun r => fst (r_first r)) rs)).
    { clear. induction rs as [|q rs IH]; intros H; [constructor|]. cbn [flat_map] in H. rewrite map_app in H. apply SS_app in H. destruct H as (_ & H & Hlt).
      cbn [map]. constructor; [apply IH, H|]. apply Forall_forall. intros t Ht. apply in_map_iff in Ht. destruct Ht as [q' [<- Hq']].
      apply Hlt; [left; reflexivity|]. apply in_map. apply in_flat_map. exists q'. split; [exact Hq'|left; reflexivity]. }
    pose proof (Hfirsts (r :: runs) Hs') as Hsf.
    assert (Hlt : forall q, In q (r :: runs) -> fst (r_first q) < raw1).
    { intros q Hq. rewrite Forall_forall in Hg2. destruct (Hg2 q Hq) as [_ Hl2].
      destruct (r_rest q) as [|s rest] eqn:Er; [cbn in Hl2; lia|].
      assert (Hs1 : In s (flat_map samples (r :: runs))) by (apply in_flat_map; exists q; split; [exact Hq|unfold samples; rewrite Er; right; left; reflexivity]).
      assert (H1 : fst s <= raw1) by (apply (Hraw1 (fst s, Some (snd s))); unfold series, measured; apply in_map_iff; exists s; auto).
      assert (H2 : fst (r_first q) < fst s); [|lia].
      apply in_split in Hq. destruct Hq as (u & v & Hq). rewrite Hq in Hs'. rewrite flat_map_app, map_app in Hs'.
      apply SS_app in Hs'. destruct Hs' as (_ & Hs' & _). cbn [flat_map] in Hs'. rewrite map_app in Hs'. apply SS_app in Hs'. destruct Hs' as (Hs' & _ & _).
      unfold samples in Hs'. rewrite Er in Hs'. cbn [map] in Hs'. inversion Hs' as [|? ? _ Hf]; subst. inversion Hf; assumption. }
    assert (Hl : last (fst (r_first r) :: map (fun r => fst (r_first r)) runs) 0 <? raw1 = true).
    { apply Z.ltb_lt. assert (Hi : In (last (fst (r_first r) :: map (fun r => fst (r_first r)) runs) 0) (map (fun r => fst (r_first r)) (r :: runs))).
      { change (fst (r_first r) :: map (fun r => fst (r_first r)) runs) with (map (fun r => fst (r_first r)) (r :: runs)).
        destruct (@exists_last _ (map (fun r => fst (r_first r)) (r :: runs))) as [l' [z Ez]]; [discriminate|]. rewrite Ez. rewrite last_last. apply in_or_app. right; left; reflexivity. }
      apply in_map_iff in Hi. destruct Hi as [q [<- Hq]]. apply Hlt, Hq. }
    rewrite Hl, H0. f_equal. apply sort_by_fixed.
    - intros a b. rewrite !Z.leb_le. lia.
    - intros a b c H1 H2. apply Z.leb_le in H1. apply Z.leb_le in H2. apply Z.leb_le. lia.
    - intros a b H1 H2. apply Z.leb_le in H1. apply Z.leb_le in H2. lia.
    - apply SS_app. split; [|split; [repeat constructor|]].
      + change (fst (r_first r) :: map (fun r => fst (r_first r)) runs) with (map (fun r => fst (r_first r)) (r :: runs)).
        clear -Hsf. induction Hsf; constructor; [assumption|]. eapply Forall_impl; [|exact H]. cbn. unfold leP. intros; apply Z.leb_le; lia.
      + intros x y Hx [<-|[]]. unfold leP. apply Z.leb_le. change (fst (r_first r) :: map (fun r => fst (r_first r)) runs) with (map (fun r => fst (r_first r)) (r :: runs)) in Hx.
        apply in_map_iff in Hx. destruct Hx as [q [<- Hq]]. specialize (Hlt q Hq). lia. }
  rewrite Hb. cbn [bind]. rewrite (cut_runs raw1 runs [] (series runs) eq_refl Hinc Hraw1). rewrite E. cbn [bind].
  rewrite usual_max, usual_min by exact Hn. rewrite !pick_filter. rewrite !apart_all by assumption. cbn [bind].
  f_equal. symmetry. apply time_sorted_unique; [exact Hext| |].
  - apply sort_by_sorted; [apply time_total|apply time_trans].
  - eapply perm_trans; [|apply Permutation_sym, sort_by_perm]. rewrite !map_map.
    assert (M : forall k (l : list (Z * bool)), map (fun x => (fst x, k)) (filter (fun x => Bool.eqb (snd x) k) l) = filter (fun x => Bool.eqb (snd x) k) l).
    { intros k l. induction l as [|[t b] l IHl]; [reflexivity|]. cbn [filter snd]. destruct (Bool.eqb b k) eqn:Eb; [|exact IHl].
      cbn [map fst]. apply eqb_prop in Eb. subst b. f_equal. exact IHl. }
    rewrite !M. apply Permutation_sym.
    eapply perm_trans; [|apply (filter_partition (fun x => Bool.eqb (snd x) true) ext)].
    apply Permutation_app_head. rewrite (filter_ext (fun x => Bool.eqb (snd x) false) (fun x => negb (Bool.eqb (snd x) true))); [apply Permutation_refl|].
    intros [t []]; reflexivity.
Qed.

(* ---------------------------------------------------------------- every series *)
Definition found (e : list (option (Z * bool))) : list (Z * bool) := flat_map (fun o => match o with Some p => [p] | None => [] end) e.
Lemma group_time th g t k : group_extremum th g = Ok (Some (t, k)) -> In t (map fst g).
Proof.
  unfold group_extremum. destruct (clean g) as [|s r] eqn:E; [discriminate|].
  assert (Hc : forall u, In u (s :: r) -> In (fst u) (map fst g)).
  { rewrite <- E. clear. intros u Hu. unfold clean in Hu. apply in_flat_map in Hu. destruct Hu as [[t v] [Hi Hu]]. cbn [fst snd] in Hu.
    destruct v as [x|]; [|destruct Hu]. destruct Hu as [<-|[]]. apply (in_map fst _ _ Hi). }
  assert (Hm : In (fst (best (fun a b => b <? a) s r)) (map fst g)) by (apply Hc, best_max).
  assert (Hn : In (fst (best (fun a b => a <? b) s r)) (map fst g)) by (apply Hc, best_min).
  destruct (List.length (filter (fun s => th <? snd s) (s :: r))) as [|[|n]];
    destruct (List.length (filter (fun s => negb (th <? snd s)) (s :: r))) as [|[|m]]; intros H; try discriminate; injection H as <- _; assumption.
Qed.
Lemma cut_times th data : forall b e, StronglySorted Z.le b -> mapM (group_extremum th) (cut b data) = Ok e ->
  StronglySorted Z.lt (map fst (found e)) /\ forall x r, b = x :: r -> Forall (fun t => x < t) (map fst (found e)).
Proof.
  induction b as [|x b IH]; intros e Hs He; [cbn in He; injection He as <-; split; [constructor|discriminate]|].
  destruct b as [|y b]; [cbn in He; injection He as <-; split; [constructor|intros; constructor]|].
  inversion Hs as [|? ? Hs' Hf]; subst. inversion Hf as [|? ? Hxy _]; subst.
  change (cut (x :: y :: b) data) with (filter (fun s => (x <? fst s) && (fst s <=? y)) data :: cut (y :: b) data) in He. cbn [mapM] in He.
  destruct (group_extremum th (filter (fun s => (x <? fst s) && (fst s <=? y)) data)) as [o|] eqn:Eo; [|discriminate]. cbn [bind] in He.
  destruct (mapM (group_extremum th) (cut (y :: b) data)) as [e'|] eqn:Ee; [|discriminate]. cbn [bind] in He. injection He as <-.
  destruct (IH e' Hs' eq_refl) as [I1 I2]. specialize (I2 y b eq_refl).
  assert (Hall : Forall (fun t => x < t) (map fst (found e'))) by (eapply Forall_impl; [|exact I2]; cbn; lia).
  destruct o as [[t k]|].
  - apply group_time in Eo. apply in_map_iff in Eo. destruct Eo as [s [<- Hi]]. apply filter_In in Hi. destruct Hi as [_ Hi].
    apply andb_true_iff in Hi. rewrite Z.ltb_lt, Z.leb_le in Hi. cbn [found flat_map app map fst]. split.
    + constructor; [exact I1|]. eapply Forall_impl; [|exact I2]. cbn. lia.
    + intros u r Hu. injection Hu as <- <-. constructor; [lia|exact Hall].
  - split; [exact I1|]. intros u r Hu. injection Hu as <- <-. exact Hall.
Qed.
Lemma pick_found k e : pick k e = map fst (filter (fun p => Bool.eqb (snd p) k) (found e)).
Proof.
  unfold pick, found. induction e as [|[[t b]|] e IH]; [reflexivity| |exact IH]. cbn [flat_map app filter snd]. rewrite IH.
  destruct (Bool.eqb b k); reflexivity.
Qed.
Lemma SS_filter_map (f : Z * bool -> bool) l : StronglySorted Z.lt (map fst l) -> StronglySorted Z.lt (map fst (filter f l)).
Proof.
  induction l as [|a l IH]; intros H; [constructor|]. cbn [map] in H. inversion H as [|? ? H' Hf]; subst. cbn [filter]. destruct (f a); [|apply IH, H'].
  cbn [map]. constructor; [apply IH, H'|]. apply Forall_forall. intros t Ht. apply in_map_iff in Ht. destruct Ht as [p [<- Hp]]. apply filter_In in Hp.
  rewrite Forall_forall in Hf. apply Hf, in_map. apply Hp.
Qed.
Definition sub (l m : list Z) : Prop := (forall t, In t l -> In t m) /\ (StronglySorted Z.lt m -> StronglySorted Z.lt l).
Lemma sub_tail l : sub (tail l) l.
Proof. destruct l as [|a l]; split; cbn; auto. intros H; inversion H; assumption. Qed.
Lemma sub_removelast l : sub (removelast l) l.
Proof.
  destruct l as [|a l]; [split; auto|]. destruct (@exists_last _ (a :: l)) as [l' [z E]]; [discriminate|]. rewrite E, removelast_last. split.
  - intros t Ht. apply in_or_app. auto.
  - intros H. apply SS_app in H. apply H.
Qed.
Lemma sub_refl l : sub l l. Proof. split; auto. Qed.
Lemma sub_trim_max n l : sub (trim_max n l) l.
Proof. unfold trim_max. destruct (existsb _ _); [apply sub_tail|apply sub_refl]. Qed.
Lemma sub_trim_min n l : sub (trim_min n l) l.
Proof. unfold trim_min. destruct (existsb _ _); [apply sub_removelast|]. destruct (String.eqb _ _); [apply sub_tail|apply sub_refl]. Qed.
Lemma far_props : forall l p, StronglySorted Z.lt (p :: l) ->
  (forall t, In t (far_from_previous p l) -> In t l) /\ Forall (fun t => separation < t - p) (far_from_previous p l)
  /\ StronglySorted (fun a b => separation < b - a) (far_from_previous p l).
Proof.
  assert (Hsep : 0 < separation) by (unfold separation; lia).
  induction l as [|t l IH]; intros p H; [repeat split; [auto|constructor|constructor]|].
  inversion H as [|? ? H' Hf]; subst. inversion Hf as [|? ? Hpt _]; subst. destruct (IH t H') as (I1 & I2 & I3).
  assert (I2' : Forall (fun t0 => separation < t0 - p) (far_from_previous t l)) by (eapply Forall_impl; [|exact I2]; cbn; lia).
  cbn [far_from_previous]. destruct (separation <? t - p) eqn:E.
  - apply Z.ltb_lt in E. repeat split.
    + intros u [<-|Hu]; [left; reflexivity|right; apply I1, Hu].
    + constructor; assumption.
    + constructor; assumption.
  - repeat split; [intros u Hu; right; apply I1, Hu|exact I2'|exact I3].
Qed.
Lemma apart_props l l' : StronglySorted Z.lt l -> apart l = Ok l' ->
  (forall t, In t l' -> In t l) /\ StronglySorted (fun a b => separation < b - a) l'.
Proof.
  destruct l as [|t l]; [discriminate|]. intros H E. injection E as <-. destruct (far_props l t H) as (I1 & I2 & I3). split.
  - intros u [<-|Hu]; [left; reflexivity|right; apply I1, Hu].
  - constructor; assumption.
Qed.
Lemma gap_in l : StronglySorted (fun a b => separation < b - a) l -> forall a b, In a l -> In b l -> a < b -> separation < b - a.
Proof.
  assert (Hsep : 0 < separation) by (unfold separation; lia).
  induction 1 as [|x l Hs IH Hf]; intros a b Ha Hb Hab; [destruct Ha|]. rewrite Forall_forall in Hf.
  destruct Ha as [<-|Ha], Hb as [<-|Hb]; [lia|apply Hf, Hb|specialize (Hf a Ha); lia|apply IH; assumption].
Qed.
Lemma gap_NoDup l : StronglySorted (fun a b => separation < b - a) l -> NoDup l.
Proof.
  assert (Hsep : 0 < separation) by (unfold separation; lia).
  induction 1 as [|x l Hs IH Hf]; constructor; [|exact IH]. intros Hi. rewrite Forall_forall in Hf. specialize (Hf x Hi). lia.
Qed.
(** Whatever the series, its threshold and its name, missing and equal values included: when extrema are found, they are in the order
    of time without repetition, and two of the same kind are more than 1000 days apart. *)
Theorem C65_ordered_and_apart name th data raw0 raw1 ext : find_extrema name th data raw0 raw1 = Ok ext ->
  increasing (map fst ext) /\
  forall k t t', In (t, k) ext -> In (t', k) ext -> t < t' -> 1000 * 86400 < t' - t.
Proof.
  unfold find_extrema. intros H. apply bind_ok in H. destruct H as [b [Hb H]]. apply bind_ok in H. destruct H as [e [He H]].
  apply bind_ok in H. destruct H as [mx [Hmx H]]. apply bind_ok in H. destruct H as [mn [Hmn H]]. injection H as <-.
  assert (Hbs : StronglySorted Z.le b).
  { unfold bins in Hb. destruct (crossings th None data) as [|c cr]; [discriminate|]. cbv zeta in Hb. injection Hb as <-.
    match goal with |- StronglySorted _ (sort_by Z.leb ?l) => assert (Hs : StronglySorted (leP Z.leb) (sort_by Z.leb l)) end.
    { apply sort_by_sorted; [intros x y; rewrite !Z.leb_le; lia|intros x y z; rewrite !Z.leb_le; lia]. }
    clear He. induction Hs as [|x0 l0 Hs0 IH0 H]; constructor; [exact IH0|]. eapply Forall_impl; [|exact H]. intros u Hu. apply Z.leb_le, Hu. }
  destruct (cut_times th data b e Hbs He) as [Hf _].
  rewrite pick_found in Hmx, Hmn.
  assert (S1 := SS_filter_map (fun p => Bool.eqb (snd p) true) _ Hf). assert (S2 := SS_filter_map (fun p => Bool.eqb (snd p) false) _ Hf).
  destruct (sub_trim_max name (map fst (filter (fun p => Bool.eqb (snd p) true) (found e)))) as [A1 A2].
  destruct (sub_trim_min name (map fst (filter (fun p => Bool.eqb (snd p) false) (found e)))) as [B1 B2].
  destruct (apart_props _ _ (A2 S1) Hmx) as [X1 X2]. destruct (apart_props _ _ (B2 S2) Hmn) as [Y1 Y2].
  set (l := map (fun t => (t, true)) mx ++ map (fun t => (t, false)) mn).
  assert (Hkind : forall k t, In (t, k) l -> In (t, k) (found e) /\ if k then In t mx else In t mn).
  { intros k t Hi. unfold l in Hi. apply in_app_or in Hi. destruct Hi as [Hi|Hi]; apply in_map_iff in Hi; destruct Hi as [u [E Hi]]; injection E as -> <-.
    - split; [|exact Hi]. apply X1, A1, in_map_iff in Hi. destruct Hi as [[t' k'] [E' Hi]]. cbn in E'. subst t'. apply filter_In in Hi. destruct Hi as [Hi E'].
      cbn in E'. apply eqb_prop in E'. subst k'. exact Hi.
    - split; [|exact Hi]. apply Y1, B1, in_map_iff in Hi. destruct Hi as [[t' k'] [E' Hi]]. cbn in E'. subst t'. apply filter_In in Hi. destruct Hi as [Hi E'].
      cbn in E'. apply eqb_prop in E'. subst k'. exact Hi. }
  assert (Hone : forall t k k', In (t, k) (found e) -> In (t, k') (found e) -> k = k').
  { intros t k k'. generalize (found e) Hf. clear. induction l as [|[u b] l IH]; intros Hf H1 H2; [destruct H1|]. cbn [map fst] in Hf.
    inversion Hf as [|? ? Hf' Hl]; subst. rewrite Forall_forall in Hl.
    destruct H1 as [H1|H1], H2 as [H2|H2]; [congruence| | |apply IH; assumption].
    - injection H1 as -> ->. specialize (Hl t (in_map fst _ _ H2)). lia.
    - injection H2 as -> ->. specialize (Hl t (in_map fst _ _ H1)). lia. }
  assert (HND : NoDup (map fst l)).
  { unfold l. rewrite map_app, !map_map. cbn [fst]. rewrite !map_id. 
    assert (Hdis : forall t, In t mx -> In t mn -> False).
    { intros t H1 H2. assert (true = false); [|discriminate]. apply (Hone t); apply Hkind; unfold l; apply in_or_app; [left|right]; apply in_map_iff; exists t; auto. }
    pose proof (gap_NoDup _ X2) as N1. pose proof (gap_NoDup _ Y2) as N2. clear -Hdis N1 N2. induction mx as [|t mx IH]; [exact N2|].
    inversion N1; subst. cbn. constructor; [|apply IH; [|assumption]; intros u Hu; apply Hdis; right; exact Hu].
    intros Hi. apply in_app_or in Hi. destruct Hi as [Hi|Hi]; [contradiction|]. apply (Hdis t); [left; reflexivity|exact Hi]. }
  split.
  - apply strong_increasing.
    assert (Hso : StronglySorted (leP time_leb) (sort_by time_leb l)) by (apply sort_by_sorted; [apply time_total|apply time_trans]).
    assert (HND' : NoDup (map fst (sort_by time_leb l))) by (eapply Permutation_NoDup; [apply Permutation_map, Permutation_sym, sort_by_perm|exact HND]).
    revert Hso HND'. generalize (sort_by time_leb l). clear. induction l as [|p l IH]; intros Hs HN; [constructor|].
    cbn [map] in *. inversion Hs as [|? ? Hs' Hf]; inversion HN as [|? ? Hn HN']; subst. constructor; [apply IH; assumption|].
    apply Forall_forall. intros t Ht. pose proof Ht as Ht'. apply in_map_iff in Ht. destruct Ht as [q [<- Hq]]. rewrite Forall_forall in Hf. specialize (Hf q Hq).
    unfold leP, time_leb in Hf. apply Z.leb_le in Hf. assert (fst p <> fst q) by (intros E; rewrite E in Hn; contradiction). lia.
  - intros k t t' H1 H2 Hlt. apply sort_by_In in H1. apply sort_by_In in H2. apply Hkind in H1. apply Hkind in H2. destruct H1 as [_ H1], H2 as [_ H2].
    change (1000 * 86400) with separation. destruct k; [apply (gap_in _ X2)|apply (gap_in _ Y2)]; assumption.
Qed.

(** But they need not alternate: a dropped maximum leaves two minima in a row (each run has three samples here and more), *)
Definition d (days : Z) : Z := days * 86400.
Theorem C65_alternation_refuted : exists data ext,
  find_extrema "myindex" 10 data 0 (d 5000) = Ok ext /\ ~ alternate (map snd ext).
Proof.
  exists (map (fun p => (d (fst p), Some (snd p)))
     [(0,20);(50,25);(100,24); (200,5);(300,4);(400,6); (500,21);(600,22);(700,21); (1500,4);(2500,3);(3500,4)]).
  eexists. split; [vm_compute; reflexivity|]. cbn. intros (_ & H & _). discriminate.
Qed.
(** a single sample above the threshold is reported as a minimum, *)
Theorem C65_short_run_refuted : exists data ext,
  find_extrema "myindex" 10 data 0 (d 9000) = Ok ext /\ map snd ext = [true; false; false].
Proof.
  exists (map (fun p => (d (fst p), Some (snd p)))
     [(0,20);(50,25);(100,24);(200,23); (1200,5);(1300,4);(1400,6); (2600,21); (3600,4);(3700,3);(3800,4)]).
  eexists. split; vm_compute; reflexivity.
Qed.
(** a run of exactly two samples makes the calculation fail, *)
Theorem C65_two_sample_run_refuted : exists data,
  Forall (fun s => exists x, snd s = Some x /\ x <> 10) data /\ find_extrema "myindex" 10 data 0 (d 9000) = Err AssertionError.
Proof.
  exists (map (fun p => (d (fst p), Some (snd p)))
     [(0,20);(50,25);(100,24); (1200,5);(1300,4); (2600,21);(2700,22);(2800,21)]).
  split; [|vm_compute; reflexivity]. cbn [map fst snd]. repeat (apply Forall_cons; [eexists; split; [cbn [snd]; reflexivity|discriminate]|]). apply Forall_nil.
Qed.
(** and the first sample of a run is never its extremum, even if it is the largest. *)
Theorem C65_first_sample_ignored_refuted : exists data ext,
  find_extrema "myindex" 10 data 0 (d 9000) = Ok ext /\ In (d 1000, Some 99) data /\ (forall s x, In s data -> snd s = Some x -> x <= 99)
  /\ ~ In (d 1000, true) ext.
Proof.
  exists (map (fun p => (d (fst p), Some (snd p)))
     [(0,5);(50,4);(100,6); (1000,99);(1300,50);(1400,20); (2600,5);(2700,4);(2800,3)]).
  eexists. split; [vm_compute; reflexivity|]. split; [cbn; tauto|]. split.
  - intros s x Hi Hx. cbn [map fst snd] in Hi. repeat (destruct Hi as [<-|Hi]; [cbn [snd] in Hx; injection Hx as Hx; lia|]). destruct Hi.
  - cbn. intros Hi. decompose [or] Hi; try contradiction; discriminate.
Qed.
Example C65_case : find_extrema "myindex" 10 (map (fun p => (d (fst p), Some (snd p)))
     [(0,20);(50,25);(100,24); (1200,5);(1300,4);(1400,6); (2600,21);(2700,22);(2800,21); (3900,4);(4000,3);(4100,4)]) 0 (d 9000)
  = Ok [(d 50, true); (d 1300, false); (d 2700, true); (d 4000, false)].
Proof. vm_compute. reflexivity. Qed.

(* ---------------------------------------------------------------- the table *)
Lemma number_from_In k l c t : In (c, t) (number_from k l) <-> exists i, c = k + Z.of_nat i /\ nth_error l i = Some t.
Proof.
  unfold number_from. 
  assert (G : forall s, In (c, t) (combine (map (fun i => k + Z.of_nat i) (seq s (List.length l))) l) <-> exists i, c = k + Z.of_nat (s + i) /\ nth_error l i = Some t).
  { induction l as [|a l IH]; intros s; cbn [List.length seq map combine In].
    - split; [intros []|]. intros [i [_ H]]. destruct i; discriminate.
    - rewrite IH. split.
      + intros [H|[i [H1 H2]]]; [injection H as <- <-; exists 0%nat; split; [f_equal; lia|reflexivity]|exists (S i); split; [rewrite H1; f_equal; lia|exact H2]].
      + intros [[|i] [H1 H2]]; [left; cbn in H2; injection H2 as <-; f_equal; rewrite H1; f_equal; lia|right; exists i; split; [rewrite H1; f_equal; lia|exact H2]]. }
  apply (G 0%nat).
Qed.
Lemma every_other k : forall e : list (Z * bool), alternate (map snd e) -> forall i,
  (match e with a :: _ => snd a = k | [] => True end -> nth_error (map fst (filter (fun x => Bool.eqb (snd x) k) e)) i = option_map fst (nth_error e (2 * i))) /\
  (match e with a :: _ => snd a = negb k | [] => True end -> nth_error (map fst (filter (fun x => Bool.eqb (snd x) k) e)) i = option_map fst (nth_error e (2 * i + 1))).
Proof.
  induction e as [|a e IH]; intros Ha i.
  - split; intros _; destruct i; cbn; try reflexivity; destruct (i + S (i + 0))%nat; reflexivity.
  - assert (Ha' : alternate (map snd e)) by (cbn [map] in Ha; destruct (map snd e); [exact I|apply Ha]).
    assert (Hn : match e with b :: _ => snd b = negb (snd a) | [] => True end) by (destruct e; [exact I|apply Ha]).
    split; intros Hk.
    + cbn [filter]. rewrite Hk, Bool.eqb_reflx. cbn [map]. destruct i as [|i]; [reflexivity|]. cbn [nth_error].
      replace (2 * S i)%nat with (S (2 * i + 1)) by lia. cbn [nth_error]. apply (IH Ha' i). destruct e; [exact I|]. rewrite Hn, Hk. reflexivity.
    + cbn [filter]. rewrite Hk. replace (Bool.eqb (negb k) k) with false by (destruct k; reflexivity).
      replace (2 * i + 1)%nat with (S (2 * i)) by lia. cbn [nth_error]. apply (IH Ha' i). destruct e; [exact I|]. rewrite Hn, Hk. destruct k; reflexivity.
Qed.
Lemma SS_nth l : StronglySorted Z.lt l -> forall i j a b, (i < j)%nat -> nth_error l i = Some a -> nth_error l j = Some b -> a < b.
Proof.
  induction 1 as [|x l Hs IH Hf]; intros i j a b Hij Ha Hb; [destruct i; discriminate|]. destruct j as [|j]; [lia|]. cbn in Hb. destruct i as [|i].
  - cbn in Ha. injection Ha as <-. rewrite Forall_forall in Hf. apply Hf. eapply nth_error_In; exact Hb.
  - cbn in Ha. apply (IH i j); [lia|exact Ha|exact Hb].
Qed.
(** The table of alternating extrema: every extremum has a row, and in each cycle the minimum comes before the maximum and the maximum
    before the minimum of the next cycle. *)
Theorem C65_table_of_cycles ext : alternate (map snd ext) -> increasing (map fst ext) -> (2 <= List.length ext)%nat ->
  exists mn mx, format_extrema ext = Ok (mn, mx) /\
  (forall t, In (t, false) ext <-> exists c, In (c, t) mn) /\ (forall t, In (t, true) ext <-> exists c, In (c, t) mx) /\
  (forall c a b, In (c, a) mn -> In (c, b) mx -> a < b) /\ (forall c a b, In (c, b) mx -> In (c + 1, a) mn -> b < a).
Proof.
  intros Ha Hi Hl. apply increasing_strong in Hi.
  set (mnl := map fst (filter (fun x => Bool.eqb (snd x) false) ext)). set (mxl := map fst (filter (fun x => Bool.eqb (snd x) true) ext)).
  assert (Hf : format_extrema ext = match mnl, mxl with
    | a :: _, b :: _ => if b <? a then Ok (number_from 0 mnl, number_from (-1) mxl) else Ok (number_from 0 mnl, number_from 0 mxl)
    | _, _ => Err IndexError end).
  { unfold format_extrema, mnl, mxl. cbv zeta. rewrite (filter_ext (fun x : Z * bool => negb (snd x)) (fun x => Bool.eqb (snd x) false)) by (intros [? []]; reflexivity).
    rewrite (filter_ext (@snd Z bool) (fun x => Bool.eqb (snd x) true)) by (intros [? []]; reflexivity). reflexivity. }
  assert (Hin : forall k t, In (t, k) ext <-> In t (map fst (filter (fun x => Bool.eqb (snd x) k) ext))).
  { intros k t. split.
    - intros H. apply in_map_iff. exists (t, k). split; [reflexivity|]. apply filter_In. split; [exact H|apply Bool.eqb_reflx].
    - intros H. apply in_map_iff in H. destruct H as [[u b] [<- H]]. apply filter_In in H. destruct H as [H E]. cbn in E. apply eqb_prop in E. subst. exact H. }
  assert (Hnum : forall k0 l t, In t l <-> exists c, In (c, t) (number_from k0 l)).
  { intros k0 l t. split.
    - intros H. apply In_nth_error in H. destruct H as [i H]. exists (k0 + Z.of_nat i). apply number_from_In. exists i. auto.
    - intros [c H]. apply number_from_In in H. destruct H as [i [_ H]]. eapply nth_error_In; exact H. }
  pose proof (fun i => every_other false ext Ha i) as HE0. pose proof (fun i => every_other true ext Ha i) as HE1. fold mnl in HE0. fold mxl in HE1.
  assert (Hlt : forall i j a b, (i < j)%nat -> option_map fst (nth_error ext i) = Some a -> option_map fst (nth_error ext j) = Some b -> a < b).
  { intros i j a b Hij H1 H2. rewrite <- nth_error_map in H1, H2. exact (SS_nth _ Hi i j a b Hij H1 H2). }
  assert (Dn : map fst (filter (fun x => Bool.eqb (snd x) false) ext) = mnl) by reflexivity.
  assert (Dx : map fst (filter (fun x => Bool.eqb (snd x) true) ext) = mxl) by reflexivity.
  clearbody mnl mxl.
  destruct ext as [|[t0 k0] [|[t1 k1] ext]]; [cbn in Hl; lia|cbn in Hl; lia|].
  cbn [map snd] in Ha. destruct Ha as [Hk1 _]. subst k1. destruct k0.
  - (* starts with Max *)
    assert (E0 : forall i, nth_error mnl i = option_map fst (nth_error ((t0, true) :: (t1, negb true) :: ext) (2 * i + 1))) by (intros i; apply (HE0 i); reflexivity).
    assert (E1 : forall i, nth_error mxl i = option_map fst (nth_error ((t0, true) :: (t1, negb true) :: ext) (2 * i))) by (intros i; apply (HE1 i); reflexivity).
    pose proof (E0 0%nat) as Z0. pose proof (E1 0%nat) as Z1. cbn in Z0, Z1.
    assert (Hf' : format_extrema ((t0, true) :: (t1, negb true) :: ext) = if t0 <? t1 then Ok (number_from 0 mnl, number_from (-1) mxl) else Ok (number_from 0 mnl, number_from 0 mxl))
      by (destruct mnl; [discriminate|]; destruct mxl; [discriminate|]; cbn in Z0, Z1; injection Z0 as ->; injection Z1 as ->; exact Hf).
    clear Hf; rename Hf' into Hf.
    assert (Hlt01 : t0 < t1) by (apply (Hlt 0%nat 1%nat); [lia|reflexivity|reflexivity]). apply Z.ltb_lt in Hlt01. rewrite Hlt01 in Hf.
    exists (number_from 0 mnl), (number_from (-1) mxl). split; [exact Hf|].
    split; [intros t; rewrite Hin, Dn; apply Hnum|]. split; [intros t; rewrite Hin, Dx; apply Hnum|]. split.
    + intros c x y H1 H2. apply number_from_In in H1. apply number_from_In in H2. destruct H1 as [i [C1 H1]], H2 as [j [C2 H2]].
      rewrite E0 in H1. rewrite E1 in H2. eapply (Hlt (2 * i + 1)%nat (2 * j)%nat); [lia|exact H1|exact H2].
    + intros c x y H2 H1. apply number_from_In in H1. apply number_from_In in H2. destruct H1 as [i [C1 H1]], H2 as [j [C2 H2]].
      rewrite E0 in H1. rewrite E1 in H2. eapply (Hlt (2 * j)%nat (2 * i + 1)%nat); [lia|exact H2|exact H1].
  - (* starts with Min *)
    assert (E0 : forall i, nth_error mnl i = option_map fst (nth_error ((t0, false) :: (t1, negb false) :: ext) (2 * i))) by (intros i; apply (HE0 i); reflexivity).
    assert (E1 : forall i, nth_error mxl i = option_map fst (nth_error ((t0, false) :: (t1, negb false) :: ext) (2 * i + 1))) by (intros i; apply (HE1 i); reflexivity).
    pose proof (E0 0%nat) as Z0. pose proof (E1 0%nat) as Z1. cbn in Z0, Z1.
    assert (Hf' : format_extrema ((t0, false) :: (t1, negb false) :: ext) = if t1 <? t0 then Ok (number_from 0 mnl, number_from (-1) mxl) else Ok (number_from 0 mnl, number_from 0 mxl))
      by (destruct mnl; [discriminate|]; destruct mxl; [discriminate|]; cbn in Z0, Z1; injection Z0 as ->; injection Z1 as ->; exact Hf).
    clear Hf; rename Hf' into Hf.
    assert (Hlt01 : t0 < t1) by (apply (Hlt 0%nat 1%nat); [lia|reflexivity|reflexivity]).
    replace (t1 <? t0) with false in Hf by (symmetry; apply Z.ltb_ge; lia).
    exists (number_from 0 mnl), (number_from 0 mxl). split; [exact Hf|].
    split; [intros t; rewrite Hin, Dn; apply Hnum|]. split; [intros t; rewrite Hin, Dx; apply Hnum|]. split.
    + intros c x y H1 H2. apply number_from_In in H1. apply number_from_In in H2. destruct H1 as [i [C1 H1]], H2 as [j [C2 H2]].
      rewrite E0 in H1. rewrite E1 in H2. eapply (Hlt (2 * i)%nat (2 * j + 1)%nat); [lia|exact H1|exact H2].
    + intros c x y H2 H1. apply number_from_In in H1. apply number_from_In in H2. destruct H1 as [i [C1 H1]], H2 as [j [C2 H2]].
      rewrite E0 in H1. rewrite E1 in H2. eapply (Hlt (2 * j + 1)%nat (2 * i)%nat); [lia|exact H2|exact H1].
Qed.
Example C65_table_case : format_extrema [(10, true); (20, false); (30, true); (40, false)]
  = Ok ([(0, 20); (1, 40)], [(-1, 10); (0, 30)]).
Proof. reflexivity. Qed.

(* ---------------------------------------------------------------- C112 *)
(** A threshold given as a number or function is the one used; so is the listed one of a listed index. *)
Theorem C112_given_threshold_used automatic name f z data raw0 raw1 :
  calculate automatic name (ThFunction f) data raw0 raw1 = calculate automatic name (ThNumber (f data)) data raw0 raw1 /\
  (automatic name = Some z -> calculate automatic name ThNone data raw0 raw1 = calculate automatic name (ThNumber z) data raw0 raw1).
Proof. split; [reflexivity|]. intros H. unfold calculate, set_threshold. rewrite H. reflexivity. Qed.
(** Without a threshold, an index that is not listed is never calculated, whatever its data. *)
Theorem C112_default_threshold_refuted automatic name data raw0 raw1 r :
  automatic name = None -> calculate automatic name ThNone data raw0 raw1 <> Ok r.
Proof. intros H. unfold calculate, set_threshold. rewrite H. discriminate. Qed.
