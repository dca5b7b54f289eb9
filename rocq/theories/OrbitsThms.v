(** C156 (the legs of an orbit), C157 (counts per leg), C158 (normalised legs), C159 (which orbit plots can be drawn). *)
From Coq Require Import Reals List String Ascii Bool Arith ZArith Lra Lia Permutation Sorted.
From Verif Require Import Py PyStr Num Sort Activity ActivityThms FitFuncsThms Hist HistThms Icme Orbits.
Import ListNotations.
Open Scope list_scope.

(* ------------------------------------------------------------------ specification *)
(** A time belongs to an interval whose ends do or do not belong to it. *)
Definition holds_t (c : closed) (i : iv) (t : Z) : Prop :=
  match c with
  | Right => (fst i < t <= snd i)%Z | Left => (fst i <= t < snd i)%Z
  | Both => (fst i <= t <= snd i)%Z | Neither => (fst i < t < snd i)%Z
  end.
(** Two intervals overlap; one ends before the other begins. *)
Definition overlap (c : closed) (a b : iv) : Prop :=
  match c with Both => (fst a <= snd b)%Z /\ (fst b <= snd a)%Z | _ => (fst a < snd b)%Z /\ (fst b < snd a)%Z end.
Definition before (c : closed) (a b : iv) : Prop := match c with Both => (snd a < fst b)%Z | _ => (snd a <= fst b)%Z end.
Definition proper (l : list iv) : Prop := forall i, In i l -> (fst i < snd i)%Z.
(** No two members overlap. *)
Definition apart_all (c : closed) (l : list iv) : Prop := ForallOrdPairs (fun a b => ~ overlap c a b) l.

(* ------------------------------------------------------------------ lemmas: intervals *)
Lemma inside_iv_spec c i t : inside_iv c i t = true <-> holds_t c i t.
Proof. unfold inside_iv, holds_t. rewrite andb_true_iff. destruct c; rewrite ?Z.leb_le, ?Z.ltb_lt; lia. Qed.
Lemma iv_total a b : iv_leb a b = true \/ iv_leb b a = true.
Proof. unfold iv_leb. destruct (Z.eqb_spec (fst a) (fst b)), (Z.eqb_spec (fst b) (fst a)); try lia; rewrite ?Z.leb_le, ?Z.ltb_lt; lia. Qed.
Lemma iv_trans a b c : iv_leb a b = true -> iv_leb b c = true -> iv_leb a c = true.
Proof.
  unfold iv_leb. destruct (Z.eqb_spec (fst a) (fst b)), (Z.eqb_spec (fst b) (fst c)), (Z.eqb_spec (fst a) (fst c)); rewrite ?Z.leb_le, ?Z.ltb_lt; lia.
Qed.
Lemma iv_antisym a b : iv_leb a b = true -> iv_leb b a = true -> a = b.
Proof.
  unfold iv_leb. destruct a as [l r], b as [l' r']. cbn [fst snd]. destruct (Z.eqb_spec l l'), (Z.eqb_spec l' l); rewrite ?Z.leb_le, ?Z.ltb_lt; intros; try lia. f_equal; lia.
Qed.
Lemma pairs_perm {X} (P : X -> X -> Prop) (sym : forall a b, P a b -> P b a) l l' : Permutation l l' -> ForallOrdPairs P l -> ForallOrdPairs P l'.
Proof.
  induction 1 as [|x l l' HP IH|x y l|l1 l2 l3 H1 IH1 H2 IH2]; intro F.
  - constructor.
  - inversion F; subst. constructor; [|apply IH; assumption]. rewrite Forall_forall in *. intros z I. apply H1. eapply Permutation_in; [apply Permutation_sym, HP|exact I].
  - inversion F as [|? ? F1 F2]; subst. inversion F2 as [|? ? F3 F4]; subst. inversion F1 as [|? ? Pyx F5]; subst. constructor; [constructor; [apply sym, Pyx|exact F3]|]. constructor; assumption.
  - auto.
Qed.
Lemma overlap_sym c a b : ~ overlap c a b -> ~ overlap c b a.
Proof. unfold overlap. destruct c; lia. Qed.
Lemma overlapping_sorted c l : proper l -> StronglySorted (leP iv_leb) l -> overlapping c l = false -> ForallOrdPairs (before c) l.
Proof.
  induction l as [|a l IH]; intros P S H; [constructor|]. inversion S as [|? ? S1 S2]; subst.
  assert (P1 : proper l) by (intros i I; apply P; right; exact I).
  destruct l as [|b l]; [constructor; constructor|].
  cbn [overlapping] in H. apply orb_false_iff in H as [H1 H2]. specialize (IH P1 S1 H2). constructor; [|exact IH].
  assert (B : before c a b) by (unfold before; destruct c; rewrite ?Z.leb_gt, ?Z.ltb_ge in H1; lia).
  constructor; [exact B|]. inversion IH as [|? ? F1 F2]; subst. eapply Forall_impl; [|exact F1]. intros d D. pose proof (P b ltac:(right; left; reflexivity)). unfold before in *. destruct c; lia.
Qed.
Lemma apart_sorted c l : proper l -> StronglySorted (leP iv_leb) l -> apart_all c l -> overlapping c l = false.
Proof.
  induction l as [|a l IH]; intros P S H; [reflexivity|]. inversion S as [|? ? S1 S2]; subst. inversion H as [|? ? H1 H2]; subst.
  assert (P1 : proper l) by (intros i I; apply P; right; exact I). specialize (IH P1 S1 H2).
  destruct l as [|b l]; [reflexivity|]. cbn [overlapping] in *. rewrite IH, orb_false_r. inversion H1 as [|? ? N _]; subst. inversion S2 as [|? ? L _]; subst.
  unfold leP, iv_leb in L. pose proof (P a ltac:(left; reflexivity)). pose proof (P b ltac:(right; left; reflexivity)). unfold overlap in N.
  destruct (Z.eqb_spec (fst a) (fst b)); rewrite ?Z.leb_le, ?Z.ltb_lt in L; destruct c; rewrite ?Z.leb_gt, ?Z.ltb_ge; lia.
Qed.
Lemma before_apart c a b : (fst a < snd a)%Z -> (fst b < snd b)%Z -> before c a b -> ~ overlap c a b.
Proof. unfold before, overlap. destruct c; lia. Qed.
Lemma overlapping_iff c l : proper l -> overlapping c (sort_by iv_leb l) = false <-> apart_all c l.
Proof.
  intros P. assert (P' : proper (sort_by iv_leb l)) by (intros i I; apply P; apply sort_by_In in I; exact I).
  pose proof (sort_by_sorted iv_leb iv_total iv_trans l) as S. split; intro H.
  - pose proof (overlapping_sorted c _ P' S H) as F. apply (pairs_perm _ (overlap_sym c) (sort_by iv_leb l)); [apply sort_by_perm|].
    clear S H P. induction F as [|x m F1 F2 IH]; [constructor|]. constructor.
    + rewrite Forall_forall in *. intros y I. apply before_apart; [apply P'; left; reflexivity|apply P'; right; exact I|apply F1, I].
    + apply IH. intros i I. apply P'. right. exact I.
  - apply apart_sorted; [exact P'|exact S|]. apply (pairs_perm _ (overlap_sym c) l); [apply Permutation_sym, sort_by_perm|exact H].
Qed.
Lemma which_none c l t : (forall i, In i l -> ~ holds_t c i t) -> forall k, which c l k t = None.
Proof.
  induction l as [|i l IH]; intros H k; [reflexivity|]. cbn. destruct (inside_iv c i t) eqn:E; [apply inside_iv_spec in E; exfalso; apply (H i); [left; reflexivity|exact E]|]. apply IH. intros j I. apply H. right. exact I.
Qed.
Lemma which_ge c l t : forall k n, which c l k t = Some n -> (k <= n)%nat.
Proof. induction l as [|i l IH]; intros k n; cbn; [discriminate|]. destruct (inside_iv c i t); [intro H; injection H as <-; lia|]. intro H. apply IH in H. lia. Qed.

(* ================================================================ C156 *)
(** Of two or more intervals without overlaps, given in any order, the earliest is the inbound leg and the next the
    outbound leg: a measurement is labelled accordingly iff its time lies in that interval, and otherwise not at all. *)
Theorem C156_legs : forall c l a b rest times, proper l -> apart_all c l -> Permutation l (a :: b :: rest) ->
  before c a b -> (forall r, In r rest -> before c b r) ->
  exists ls, orbit_legs (Intervals c l) times = Ok ls
    /\ Forall2 (fun t lab => (lab = Some Inbound <-> holds_t c a t) /\ (lab = Some Outbound <-> holds_t c b t)) times ls.
Proof.
  intros c l a b rest times P AP HP AB BR. unfold orbit_legs, set_orbit. cbn [bind fst snd].
  assert (Pa : (fst a < snd a)%Z) by (apply P; apply (Permutation_in _ (Permutation_sym HP)); left; reflexivity).
  assert (Pb : (fst b < snd b)%Z) by (apply P; apply (Permutation_in _ (Permutation_sym HP)); right; left; reflexivity).
  assert (E : sort_by iv_leb l = a :: b :: sort_by iv_leb rest).
  { rewrite (sort_by_invariant iv_leb iv_total iv_trans iv_antisym l (a :: b :: sort_by iv_leb rest)).
    2:{ eapply perm_trans; [exact HP|]. apply perm_skip, perm_skip, Permutation_sym, sort_by_perm. }
    apply (sort_by_fixed iv_leb iv_total iv_trans iv_antisym).
    assert (Lt : forall x y, (fst x < snd x)%Z -> before c x y -> iv_leb x y = true).
    { intros x y Px B. unfold iv_leb, before in *. destruct (Z.eqb_spec (fst x) (fst y)); [destruct c; lia|]. apply Z.ltb_lt. destruct c; lia. }
    constructor; [constructor; [apply (sort_by_sorted iv_leb iv_total iv_trans)|]|].
    - apply Forall_forall. intros r I. apply sort_by_In in I. apply Lt; [exact Pb|apply BR, I].
    - constructor; [apply Lt; assumption|]. apply Forall_forall. intros r I. apply sort_by_In in I. apply Lt; [exact Pa|]. specialize (BR r I). unfold before in *. destruct c; lia. }
  unfold legs. rewrite (proj2 (overlapping_iff c l P) AP), E. eexists. split; [reflexivity|].
  induction times as [|t ts IH]; [constructor|]. cbn [map]. constructor; [|exact IH]. cbn [which].
  destruct (inside_iv c a t) eqn:IA; [apply inside_iv_spec in IA|].
  - split; [split; auto|]. split; [discriminate|]. intro HB. exfalso. unfold before, holds_t in *. destruct c; lia.
  - assert (NA : ~ holds_t c a t) by (rewrite <- inside_iv_spec; congruence).
    destruct (inside_iv c b t) eqn:IB; [apply inside_iv_spec in IB|].
    + split; [split; [discriminate|intro; contradiction]|split; auto].
    + assert (NB : ~ holds_t c b t) by (rewrite <- inside_iv_spec; congruence).
      destruct (which c (sort_by iv_leb rest) 2 t) as [n|] eqn:W; [apply which_ge in W|split; split; intro; try discriminate; contradiction].
      destruct n as [|[|n]]; [lia|lia|]. split; split; intro; try discriminate; contradiction.
Qed.
(** What is refused: anything but intervals (TypeError), overlapping intervals (ValueError), fewer than two (IndexError). *)
Theorem C156_refused : forall c l times, proper l ->
  orbit_legs NotIntervals times = Err TypeError
  /\ (orbit_legs (Intervals c l) times = Err ValueError <-> ~ apart_all c l)
  /\ (orbit_legs (Intervals c l) times = Err IndexError <-> (List.length l < 2)%nat).
Proof.
  intros c l times P. split; [reflexivity|]. unfold orbit_legs, set_orbit. cbn [bind fst snd]. unfold legs.
  pose proof (overlapping_iff c l P) as O. pose proof (sort_by_length iv_leb l) as L.
  assert (S2 : (List.length l < 2)%nat -> apart_all c l).
  { intros H. destruct l as [|x [|y l]]; [constructor|constructor; constructor|cbn in H; lia]. }
  destruct (overlapping c (sort_by iv_leb l)) eqn:E.
  - split; [split; [intros _ A; apply O in A; discriminate|reflexivity]|]. split; [discriminate|]. intros H. apply S2, O in H. discriminate.
  - assert (A : apart_all c l) by (apply O; reflexivity). destruct (sort_by iv_leb l) as [|x [|y r]]; cbn in L.
    + split; split; intro H; try discriminate; try reflexivity; try contradiction. lia.
    + split; split; intro H; try discriminate; try reflexivity; try contradiction. lia.
    + split; split; intro H; try discriminate; try contradiction. lia.
Qed.
Example C156_ex : proper [(5, 9); (1, 4)]%Z /\ apart_all Right [(5, 9); (1, 4)]%Z /\ before Right (1, 4)%Z (5, 9)%Z
  /\ orbit_legs (Intervals Right [(5, 9); (1, 4)]%Z) [1; 4; 5; 6]%Z = Ok [None; Some Inbound; None; Some Outbound].
Proof.
  split; [intros i [<-|[<-|[]]]; cbn; lia|]. split; [|split; [cbn; lia|reflexivity]].
  constructor; [constructor; [cbn; lia|constructor]|constructor; constructor].
Qed.

(* ------------------------------------------------------------------ lemmas: tables *)
Open Scope R_scope.
Section Tab.
  Variable K : Type.
  Variable keqb : K -> K -> bool.
  Hypothesis keqb_spec : forall a b, keqb a b = true <-> a = b.
  Lemma kl_spec (a b : K * leg) : kl_eqb K keqb a b = true <-> a = b.
  Proof.
    destruct a as [k l], b as [k' l']. unfold kl_eqb. cbn [fst snd]. rewrite andb_true_iff, keqb_spec. split.
    - intros [-> H]. destruct l, l'; try discriminate; reflexivity.
    - intro H. injection H as -> ->. split; [reflexivity|destruct l'; reflexivity].
  Qed.
  Definition tab (g : K * leg -> XR) (ks : list (K * leg)) : list ((K * leg) * XR) := map (fun k => (k, g k)) ks.
  Lemma at_tab g ks k : In k ks -> at_key (K * leg) (kl_eqb K keqb) (tab g ks) k = g k.
  Proof.
    induction ks as [|q ks IH]; intros I; [destruct I|]. cbn. destruct (kl_eqb K keqb q k) eqn:E; [apply kl_spec in E; subst; reflexivity|].
    destruct I as [->|I]; [exfalso; assert (kl_eqb K keqb k k = true) by (apply kl_spec; reflexivity); congruence|apply IH, I].
  Qed.
  Lemma at_app a b k : ~ In k (map fst a) -> at_key (K * leg) (kl_eqb K keqb) (a ++ b) k = at_key (K * leg) (kl_eqb K keqb) b k.
  Proof.
    induction a as [|[q v] a IH]; intros N; [reflexivity|]. cbn. destruct (kl_eqb K keqb q k) eqn:E; [apply kl_spec in E; subst; exfalso; apply N; left; reflexivity|]. apply IH. intro I. apply N. right. exact I.
  Qed.
  Lemma at_app_l a b k : In k (map fst a) -> at_key (K * leg) (kl_eqb K keqb) (a ++ b) k = at_key (K * leg) (kl_eqb K keqb) a k.
  Proof.
    induction a as [|[q v] a IH]; intros I; [destruct I|]. cbn in I |- *. destruct (kl_eqb K keqb q k) eqn:E; [reflexivity|]. apply IH. destruct I as [->|I]; [|exact I].
    exfalso. assert (kl_eqb K keqb k k = true) by (apply kl_spec; reflexivity). congruence.
  Qed.
  Lemma divide_tab h g ks : divide_by (K * leg) h (tab g ks) = tab (fun k => adiv (g k) (h k)) ks.
  Proof. unfold divide_by, tab. rewrite map_map. reflexivity. Qed.
  Lemma tab_ext g g' ks : (forall k, In k ks -> g k = g' k) -> tab g ks = tab g' ks.
  Proof. intro H. unfold tab. apply map_ext_in. intros k I. rewrite H by exact I. reflexivity. Qed.
  Lemma tab_keys g ks : map fst (tab g ks) = ks.
  Proof. unfold tab. rewrite map_map. cbn. apply map_id. Qed.
  (** what the plain table holds: the number of data per bin and leg *)
  Definition hits {X} (cutf : X -> option K) (k : K) (l : leg) (rl : X * option leg) : bool :=
    match cutf (fst rl) with Some q => keqb q k | None => false end && match snd rl with Some l' => leg_eqb l' l | None => false end.
  Lemma count_ones n : count (map (fun _ : nat => Fin 1) (seq 0 n)) = Fin (INR n).
  Proof.
    unfold count. replace (filter notnan (map (fun _ : nat => Fin 1) (seq 0 n))) with (map (fun _ : nat => Fin 1) (seq 0 n)).
    - unfold ofnat. rewrite map_length, seq_length, fin_ofZ, <- INR_IZR_INZ. reflexivity.
    - symmetry. generalize 0%nat. induction n as [|n IH]; intro a; [reflexivity|]. cbn [seq map filter]. change (notnan (Fin 1)) with true. cbn iota. rewrite IH. reflexivity.
  Qed.
  Lemma all_ones (l : list XR) : (forall x, In x l -> x = Fin 1) -> l = map (fun _ : nat => Fin 1) (seq 0 (List.length l)).
  Proof.
    intros H. assert (G : forall a, l = map (fun _ : nat => Fin 1) (seq a (List.length l))); [|apply G]. induction l as [|x l IH]; intro a; [reflexivity|]. cbn. rewrite (H x) by (left; reflexivity). f_equal. apply IH. intros y I. apply H. right. exact I.
  Qed.
  Lemma default_is_count (targets : list XR) : targets <> [] -> (forall x, In x targets -> x = Fin 1) -> the_fcn FDefault targets = count.
  Proof.
    intros NE H. cbn [the_fcn]. replace (List.length (distinct (filter notnan targets))) with 1%nat; [reflexivity|]. symmetry.
    rewrite (all_ones targets H). destruct targets as [|x r]; [congruence|]. clear.
    assert (G : forall n a, List.length (distinct (Fin 1 :: filter notnan (map (fun _ : nat => Fin 1) (seq a n)))) = 1%nat).
    { induction n as [|n IH]; intro a; [reflexivity|]. cbn [seq map filter]. change (notnan (Fin 1)) with true. cbn iota. specialize (IH (S a)). cbn [distinct existsb] in *.
      rewrite fin_eqb. replace (Reqb 1 1) with true by (symmetry; apply Reqb_true; reflexivity). cbn [orb]. exact IH. }
    cbn [List.length seq map filter]. change (notnan (Fin 1)) with true. cbn iota. apply G.
  Qed.
  Lemma leg_table_counts {X} (w : X -> XR) (f : fcn) (cutf : X -> option K) keys (data : list X) ls : (forall r, In r data -> w r = Fin 1) -> data <> [] -> (f = FDefault \/ f = FCount) ->
    leg_table K keqb keys (None, None) f (map (fun r => (cutf r, w r)) data) ls
    = tab (fun k => Fin (INR (tally (hits cutf (fst k) (snd k)) (combine data ls)))) (list_prod keys [Inbound; Outbound]).
  Proof.
    intros U NE F. unfold leg_table, tab. cbv zeta. apply map_ext_in. intros [k l] _. f_equal. cbn [within fst snd andb].
    assert (Q : the_fcn f (map snd (map (fun r => (cutf r, w r)) data)) = count).
    { destruct F as [->| ->]; [|reflexivity]. apply default_is_count; [destruct data; [congruence|discriminate]|]. intros x I. rewrite map_map in I. apply in_map_iff in I as (r & <- & I). apply U, I. }
    rewrite Q.
    match goal with |- count ?m = _ => set (ms := m) end.
    assert (O : forall x, In x ms -> x = Fin 1).
    { intros x I. unfold ms, members in I. apply in_map_iff in I as ([a b] & <- & I). apply filter_In in I as [I _]. apply in_map_iff in I as ([[q v] lab] & Ei & I). cbn [fst snd] in *. injection Ei as <- <-.
      apply in_combine_l in I. apply in_map_iff in I as (r & Er & I). injection Er as <- <-. apply U, I. }
    rewrite (all_ones ms O), count_ones. f_equal. f_equal. unfold ms, members, tally. rewrite map_length.
    clear. revert ls. induction data as [|r data IH]; intros [|lab ls]; try reflexivity. cbn [map combine filter fst snd]. unfold hits at 1. cbn [fst snd].
    specialize (IH ls). unfold with_leg, kl_eqb in *. destruct (cutf r) as [q|], lab as [l'|]; cbn [fst snd andb]; rewrite ?andb_false_r; cbn iota; try exact IH.
    destruct (keqb q k && leg_eqb l' l)%bool; cbn [List.length]; [f_equal|]; exact IH.
  Qed.
End Tab.
Arguments tab {K}.

Definition in_leg (l : leg) (lab : option leg) : bool := match lab with Some l' => leg_eqb l' l | None => false end.
(** how many data lie in a bin (cell) during a leg *)
Definition number1 (e : list R) (i : nat) (l : leg) (data : list (XR * XR)) (ls : list (option leg)) : nat :=
  tally (fun rl => bin e i (fst (fst rl)) && in_leg l (snd rl)) (combine data ls).
Definition number2 (ex ey : list R) (i j : nat) (l : leg) (data : list (XR * XR * XR)) (ls : list (option leg)) : nat :=
  tally (fun rl => cell2 ex ey i j (fst rl) && in_leg l (snd rl)) (combine data ls).
Definition keys3 (ex ey : list R) : list k3 := list_prod (grid ex ey) [Inbound; Outbound].
Lemma in_keys3 ex ey i j l : In ((i, j), l) (keys3 ex ey) <-> (i < nbin ex)%nat /\ (j < nbin ey)%nat.
Proof. unfold keys3. rewrite in_prod_iff, in_grid. destruct l; cbn; tauto. Qed.
Definition leg_counts ex ey data ls (k : k3) : R := INR (number2 ex ey (fst (fst k)) (snd (fst k)) (snd k) data ls).
Lemma leg_table2 ex ey data ls f : ordered ex -> ordered ey -> unweighted data -> data <> [] -> (f = FDefault \/ f = FCount) ->
  leg_table k2 k2_eqb (bins2 (map Fin ex) (map Fin ey)) nolim f (rows2 (map Fin ex) (map Fin ey) data) ls
  = tab (fun k => Fin (leg_counts ex ey data ls k)) (keys3 ex ey).
Proof.
  intros Ox Oy U NE F. rewrite bins2_grid. unfold rows2, nolim.
  rewrite (leg_table_counts k2 k2_eqb (fun r : XR * XR * XR => snd r) f (cut2 (map Fin ex) (map Fin ey)) (grid ex ey) data ls U NE F).
  apply tab_ext. intros [[i j] l] I. apply in_keys3 in I as [Li Lj]. unfold leg_counts, number2. cbn [fst snd]. do 2 f_equal. apply tally_ext. intros [r lab] _. unfold hits. cbn [fst snd]. rewrite cut2_match by assumption. reflexivity.
Qed.

(* ================================================================ C157 *)
(** A count histogram shows for each bin and leg how many data lie in the bin during that leg; zero, not missing, if none
    do. Together the legs hold the data of the bin that belong to a leg. *)
Theorem C157_counts_2d : forall lx ly ex ey data ls f, ordered ex -> ordered ey -> unweighted data -> data <> [] -> (f = FDefault \/ f = FCount) ->
  forall i j l, (i < nbin ex)%nat -> (j < nbin ey)%nat ->
  orbit_value (orbit_agg2 lx ly N2None nolim nolim (map Fin ex) (map Fin ey) f data ls) i j l = Fin (INR (number2 ex ey i j l data ls)).
Proof.
  intros lx ly ex ey data ls f Ox Oy U NE F i j l Li Lj. unfold orbit_agg2. cbv zeta. rewrite leg_table2 by assumption. cbn [leg_normalizer].
  assert (N : map (fun kv : k3 * XR => (fst kv, if within nolim (snd kv) then snd kv else anan)) (tab (fun k => Fin (leg_counts ex ey data ls k)) (keys3 ex ey)) = tab (fun k => Fin (leg_counts ex ey data ls k)) (keys3 ex ey)).
  { unfold tab. rewrite map_map. reflexivity. }
  rewrite N. cbn [flat_map]. rewrite app_nil_r. unfold orbit_value, leg_value.
  assert (PT : forall l0, leg_part l0 (tab (fun k => Fin (leg_counts ex ey data ls k)) (keys3 ex ey)) = tab (fun k => Fin (leg_counts ex ey data ls k)) (filter (fun k : k3 => leg_eqb (snd k) l0) (keys3 ex ey))).
  { intro l0. unfold leg_part, tab. generalize (keys3 ex ey). induction l1 as [|k ks IH]; [reflexivity|]. cbn [map filter fst]. rewrite IH. destruct (leg_eqb (snd k) l0); reflexivity. }
  rewrite !PT.
  assert (IK : In ((i, j), l) (filter (fun k : k3 => leg_eqb (snd k) l) (keys3 ex ey))) by (apply filter_In; split; [apply in_keys3; auto|destruct l; reflexivity]).
  destruct l.
  - rewrite (at_app_l k2 k2_eqb k2_eqb_spec) by (rewrite tab_keys; exact IK). rewrite (at_tab k2 k2_eqb k2_eqb_spec) by exact IK. reflexivity.
  - rewrite (at_app k2 k2_eqb k2_eqb_spec) by (rewrite tab_keys; intro Q; apply filter_In in Q as [_ Q]; discriminate). rewrite (at_tab k2 k2_eqb k2_eqb_spec) by exact IK. reflexivity.
Qed.
Theorem C157_counts_1d : forall e data ls f, ordered e -> (forall r, In r data -> snd r = Fin 1) -> data <> [] -> (f = FDefault \/ f = FCount) ->
  exists t, orbit_agg1 N1None nolim (map Fin e) f data ls = Ok t /\
  forall i l, (i < nbin e)%nat -> leg_value nat Nat.eqb t i l = Fin (INR (number1 e i l data ls)).
Proof.
  intros e data ls f O U NE F. eexists. split; [reflexivity|]. intros i l Li. unfold rows1, nolim.
  rewrite (leg_table_counts nat Nat.eqb (fun r : XR * XR => snd r) f (fun r => cut (map Fin e) (fst r)) (bins (map Fin e)) data ls U NE F). unfold leg_value.
  rewrite (at_tab nat Nat.eqb nat_eqb_spec) by (apply in_prod_iff; split; [rewrite bins_fin; apply in_seq; lia|destruct l; cbn; tauto]). cbn [fst snd]. do 2 f_equal.
  unfold number1. apply tally_ext. intros [r lab] _. unfold hits. cbn [fst snd]. rewrite cut_match by assumption. reflexivity.
Qed.
Lemma tally_split {X} (p : X -> bool) (a b c : X -> bool) l : (forall x, p x && c x = (p x && a x) || (p x && b x))%bool -> (forall x, a x = true -> b x = true -> False) ->
  (tally (fun x => p x && a x) l + tally (fun x => p x && b x) l = tally (fun x => p x && c x) l)%nat.
Proof.
  intros H D. induction l as [|x l IH]; [reflexivity|]. rewrite !tally_cons, <- IH, H. specialize (D x). destruct (p x), (a x), (b x); cbn; try lia; exfalso; auto.
Qed.
Theorem C157_both_legs : forall ex ey i j data ls,
  (number2 ex ey i j Inbound data ls + number2 ex ey i j Outbound data ls
   = tally (fun rl => cell2 ex ey i j (fst rl) && match snd rl with Some _ => true | None => false end) (combine data ls))%nat
  /\ (List.length ls = List.length data -> (forall lab, In lab ls -> lab <> None) ->
      (number2 ex ey i j Inbound data ls + number2 ex ey i j Outbound data ls = tally (cell2 ex ey i j) data)%nat).
Proof.
  intros ex ey i j data ls. unfold number2.
  pose proof (tally_split (fun rl : (XR * XR * XR) * option leg => cell2 ex ey i j (fst rl)) (fun rl => in_leg Inbound (snd rl)) (fun rl => in_leg Outbound (snd rl)) (fun rl => match snd rl with Some _ => true | None => false end) (combine data ls)) as H.
  assert (H1 := H ltac:(intros [r [[]|]]; cbn; destruct (cell2 ex ey i j r); reflexivity) ltac:(intros [r [[]|]]; cbn; discriminate)). clear H. cbn beta in H1. split; [exact H1|]. rewrite H1. clear H1.
  revert ls. induction data as [|r data IH]; intros [|lab ls] L N; try discriminate; [reflexivity|]. cbn [combine]. rewrite !tally_cons. cbn [fst snd]. rewrite IH; [|now injection L|intros x I; apply N; right; exact I].
  destruct lab; [rewrite andb_true_r; reflexivity|exfalso; apply (N None); [left; reflexivity|reflexivity]].
Qed.
(** A density per leg cannot be had in one dimension. *)
Theorem C157_density_1d_refuted : forall clim b data ls, (exists e, orbit_agg1 (T := XR) N1Density clim b FDefault data ls = Err e) /\ (exists e, orbit_agg1 (T := XR) N1Density clim b FCount data ls = Err e).
Proof. intros. split; eexists; reflexivity. Qed.

(* ------------------------------------------------------------------ lemmas: the two passes *)
Definition pass (lx ly : bool) (norm : axnorm2) (bx by_ : list XR) (g : k3 -> XR) (ks : list k3) (k : k3) : XR :=
  let dx i := let d := width bx i in if lx then exp10 d else d in
  let dy j := let d := width by_ j in if ly then exp10 d else d in
  match norm with
  | N2None => g k
  | N2Col => adiv (g k) (series_max (map g (filter (same_x k) ks)))
  | N2Row => adiv (g k) (series_max (map g (filter (same_y k) ks)))
  | N2Total => adiv (g k) (series_max (map g ks))
  | N2Density => adiv (adiv (adiv (g k) (dx (fst (fst k)))) (dy (snd (fst k)))) (sum_skip (map g ks))
  | N2ColDensity => adiv (adiv (g k) (sum_skip (map g (filter (same_x k) ks)))) (width by_ (snd (fst k)))
  | N2RowDensity => adiv (adiv (g k) (sum_skip (map g (filter (same_y k) ks)))) (width bx (fst (fst k)))
  end.
Lemma entries_tab q g ks : some_entries q (tab g ks) = map g (filter q ks).
Proof. unfold some_entries, tab. induction ks as [|k ks IH]; [reflexivity|]. cbn [map filter fst]. destruct (q k); cbn [map snd]; rewrite IH; reflexivity. Qed.
Lemma values_tab g ks : values k3 (tab g ks) = map g ks.
Proof. unfold values, tab. rewrite map_map. reflexivity. Qed.
Lemma normalizer_tab lx ly norm bx by_ g ks : leg_normalizer lx ly norm bx by_ (tab g ks) = tab (pass lx ly norm bx by_ g ks) ks.
Proof.
  destruct norm; cbn [leg_normalizer]; cbv zeta; rewrite ?values_tab; unfold k3; rewrite ?divide_tab; try reflexivity; apply tab_ext; intros k I; cbn [pass]; rewrite ?entries_tab; reflexivity.
Qed.
Lemma two_passes lx ly norm ex ey data ls f i j l : ordered ex -> ordered ey -> unweighted data -> data <> [] -> (f = FDefault \/ f = FCount) ->
  (i < nbin ex)%nat -> (j < nbin ey)%nat ->
  orbit_value (orbit_agg2 lx ly norm nolim nolim (map Fin ex) (map Fin ey) f data ls) i j l
  = pass lx ly norm (map Fin ex) (map Fin ey) (pass lx ly norm (map Fin ex) (map Fin ey) (fun k => Fin (leg_counts ex ey data ls k)) (keys3 ex ey))
      (filter (fun k : k3 => leg_eqb (snd k) l) (keys3 ex ey)) ((i, j), l).
Proof.
  intros Ox Oy U NE F Li Lj. unfold orbit_agg2. cbv zeta. rewrite leg_table2, normalizer_tab by assumption.
  set (g1 := pass _ _ _ _ _ _ _).
  assert (N : map (fun kv : k3 * XR => (fst kv, if within nolim (snd kv) then snd kv else anan)) (tab g1 (keys3 ex ey)) = tab g1 (keys3 ex ey)).
  { unfold tab. rewrite map_map. reflexivity. }
  rewrite N. cbn [flat_map]. rewrite app_nil_r. unfold orbit_value, leg_value.
  assert (PT : forall l0, leg_part l0 (tab g1 (keys3 ex ey)) = tab g1 (filter (fun k : k3 => leg_eqb (snd k) l0) (keys3 ex ey))).
  { intro l0. unfold leg_part, tab. generalize (keys3 ex ey). induction l1 as [|k ks IH]; [reflexivity|]. cbn [map filter fst]. rewrite IH. destruct (leg_eqb (snd k) l0); reflexivity. }
  rewrite !PT, !normalizer_tab.
  assert (IK : In ((i, j), l) (filter (fun k : k3 => leg_eqb (snd k) l) (keys3 ex ey))) by (apply filter_In; split; [apply in_keys3; auto|destruct l; reflexivity]).
  destruct l.
  - rewrite (at_app_l k2 k2_eqb k2_eqb_spec) by (rewrite tab_keys; exact IK). rewrite (at_tab k2 k2_eqb k2_eqb_spec) by exact IK. reflexivity.
  - rewrite (at_app k2 k2_eqb k2_eqb_spec) by (rewrite tab_keys; intro Q; apply filter_In in Q as [_ Q]; discriminate). rewrite (at_tab k2 k2_eqb k2_eqb_spec) by exact IK. reflexivity.
Qed.
Lemma max_of_fins (l : list R) : l <> [] -> exists m, series_max (map Fin l) = Fin m /\ is_top m l.
Proof.
  intros NE. destruct (series_max_fin (map Some l)) as (m & E & T).
  - destruct l; [congruence|discriminate].
  - exists m. assert (P : present (map Some l) = l) by (clear; induction l as [|x l IH]; [reflexivity|]; unfold present in *; cbn; rewrite IH; reflexivity). rewrite P in T. rewrite map_map in E. auto.
Qed.
(** Dividing by the largest entry of the group, over all legs and then again in each leg. *)
Lemma twice_by_max (c : k3 -> R) (q : k3 -> k3 -> bool) (ks : list k3) (l : leg) (k0 : k3) :
  (forall k k', q k k' = true -> forall x, q k x = q k' x) -> (forall k, q k k = true) -> (forall k, 0 <= c k) ->
  let ksl := filter (fun k : k3 => leg_eqb (snd k) l) ks in
  (exists k, In k ksl /\ q k0 k = true /\ 0 < c k) ->
  let g1 k := adiv (Fin (c k)) (series_max (map (fun k => Fin (c k)) (filter (q k) ks))) in
  exists m, 0 < m /\ is_top m (map c (filter (q k0) ksl)) /\ forall k, In k ksl -> q k0 k = true -> adiv (g1 k) (series_max (map g1 (filter (q k) ksl))) = Fin (c k / m).
Proof.
  intros QE QR C0 ksl (kp & Ip & Qp & Cp) g1.
  assert (IKS : forall k, In k ksl -> In k ks) by (intros k I; apply filter_In in I; tauto).
  assert (M1 : exists M, 0 < M /\ series_max (map (fun k => Fin (c k)) (filter (q k0) ks)) = Fin M).
  { destruct (max_of_fins (map c (filter (q k0) ks))) as (M & E & [_ T]).
    - intro Z. apply map_eq_nil in Z. assert (I : In kp (filter (q k0) ks)) by (apply filter_In; auto). rewrite Z in I. destruct I.
    - exists M. rewrite map_map in E. split; [|exact E]. apply (Rlt_le_trans _ _ _ Cp). apply T. apply in_map, filter_In. auto. }
  destruct M1 as (M & PM & EM).
  assert (G1 : forall k, q k0 k = true -> g1 k = Fin (c k / M)).
  { intros k Q. unfold g1. rewrite (filter_ext _ _ (fun x => eq_sym (QE k0 k Q x))), EM. apply fin_div. lra. }
  destruct (max_of_fins (map (fun k => c k / M) (filter (q k0) ksl))) as (v & E & T).
  { intro Z. apply map_eq_nil in Z. assert (I : In kp (filter (q k0) ksl)) by (apply filter_In; auto). rewrite Z in I. destruct I. }
  exists (v * M). destruct T as [T1 T2].
  assert (Pv : 0 < v). { apply (Rlt_le_trans _ (c kp / M)); [apply Rdiv_lt_0_compat; lra|]. apply T2. apply in_map_iff. exists kp. split; [reflexivity|]. apply filter_In. auto. }
  split; [apply Rmult_lt_0_compat; lra|]. split.
  - split.
    + apply in_map_iff in T1 as (k & E1 & I). apply in_map_iff. exists k. split; [|exact I]. rewrite <- E1. field. lra.
    + intros x I. apply in_map_iff in I as (k & <- & I). assert (L : c k / M <= v) by (apply T2; apply in_map_iff; exists k; auto).
      apply (Rmult_le_compat_r M) in L; [|lra]. replace (c k / M * M) with (c k) in L by (field; lra). exact L.
  - intros k I Q. rewrite (G1 k Q).
    assert (EQ : map g1 (filter (q k) ksl) = map Fin (map (fun k => c k / M) (filter (q k0) ksl))).
    { rewrite map_map, (filter_ext _ _ (fun x => eq_sym (QE k0 k Q x))). apply map_ext_in. intros k' I'. apply filter_In in I' as [_ I']. apply G1, I'. }
    rewrite EQ, E, fin_div by lra. f_equal. field. lra.
Qed.

(* ================================================================ C158 *)
(** In each leg, a column normalised histogram shows the counts over the largest count of that column during that leg. *)
Definition shows_fraction_of_largest (group : nat * nat -> Prop) nx ny (count shown : nat -> nat -> R -> Prop) : Prop :=
  exists m, 0 < m /\ (exists i j, (i < nx)%nat /\ (j < ny)%nat /\ group (i, j) /\ count i j m)
    /\ (forall i j n, (i < nx)%nat -> (j < ny)%nat -> group (i, j) -> count i j n -> n <= m)
    /\ (forall i j n, (i < nx)%nat -> (j < ny)%nat -> group (i, j) -> count i j n -> shown i j (n / m)).
Section C158.
  Variables (lx ly : bool) (ex ey : list R) (data : list (XR * XR * XR)) (ls : list (option leg)) (f : fcn (T := XR)) (l : leg).
  Hypothesis Ox : ordered ex. Hypothesis Oy : ordered ey. Hypothesis U : unweighted data. Hypothesis NE : data <> []. Hypothesis Hf : f = FDefault \/ f = FCount.
  Let agg norm i j := orbit_value (orbit_agg2 lx ly norm nolim nolim (map Fin ex) (map Fin ey) f data ls) i j l.
  Let num i j := INR (number2 ex ey i j l data ls).
  Lemma by_max_result norm (q : k3 -> k3 -> bool) (group : nat * nat -> Prop) (k0 : nat * nat) :
    (forall g ks k, pass lx ly norm (map Fin ex) (map Fin ey) g ks k = adiv (g k) (series_max (map g (filter (q k) ks)))) ->
    (forall k k', q k k' = true -> forall x, q k x = q k' x) -> (forall k, q k k = true) -> (forall i j, q (k0, l) ((i, j), l) = true <-> group (i, j)) ->
    (exists i j, (i < nbin ex)%nat /\ (j < nbin ey)%nat /\ group (i, j) /\ 0 < num i j) ->
    shows_fraction_of_largest group (nbin ex) (nbin ey) (fun i j n => n = num i j) (fun i j v => agg norm i j = Fin v).
  Proof.
    intros PE QE QR QG (i1 & j1 & L1 & L2 & G1 & P1).
    destruct (twice_by_max (leg_counts ex ey data ls) q (keys3 ex ey) l (k0, l) QE QR (fun k => pos_INR _)) as (m & Pm & [T1 T2] & V).
    { exists ((i1, j1), l). split; [apply filter_In; split; [apply in_keys3; auto|destruct l; reflexivity]|]. split; [apply QG, G1|exact P1]. }
    exists m. split; [exact Pm|].
    assert (IK : forall i j, (i < nbin ex)%nat -> (j < nbin ey)%nat -> In ((i, j), l) (filter (fun k : k3 => leg_eqb (snd k) l) (keys3 ex ey))) by (intros i j A B; apply filter_In; split; [apply in_keys3; auto|destruct l; reflexivity]).
    split; [|split].
    - apply in_map_iff in T1 as ([[i j] l'] & E & I). apply filter_In in I as [I Q]. apply filter_In in I as [I EL]. cbn [snd] in EL. assert (l' = l) by (destruct l', l; try discriminate; reflexivity). subst l'.
      apply in_keys3 in I as [A B]. exists i, j. split; [exact A|]. split; [exact B|]. split; [apply QG, Q|]. symmetry. exact E.
    - intros i j n A B G ->. apply T2. apply in_map_iff. exists ((i, j), l). split; [reflexivity|]. apply filter_In. split; [apply IK; assumption|apply QG, G].
    - intros i j n A B G ->. unfold agg. rewrite two_passes by assumption. rewrite PE.
      change (num i j) with (leg_counts ex ey data ls ((i, j), l)). rewrite <- (V ((i, j), l) (IK i j A B) (proj2 (QG i j) G)).
      assert (E : forall k, pass lx ly norm (map Fin ex) (map Fin ey) (fun k => Fin (leg_counts ex ey data ls k)) (keys3 ex ey) k = adiv (Fin (leg_counts ex ey data ls k)) (series_max (map (fun k => Fin (leg_counts ex ey data ls k)) (filter (q k) (keys3 ex ey))))) by (intro k; apply PE).
      rewrite (map_ext _ _ E), E. reflexivity.
  Qed.
  Theorem C158_columns : forall i0, (exists j, (i0 < nbin ex)%nat /\ (j < nbin ey)%nat /\ 0 < num i0 j) ->
    shows_fraction_of_largest (fun k => fst k = i0) (nbin ex) (nbin ey) (fun i j n => n = num i j) (fun i j v => agg N2Col i j = Fin v).
  Proof.
    intros i0 (j & A & B & C). apply (by_max_result N2Col same_x (fun k => fst k = i0) (i0, 0%nat)); [reflexivity| | | |].
    - intros k k' H x. unfold same_x in *. apply Nat.eqb_eq in H. rewrite H. reflexivity.
    - intro k. apply Nat.eqb_refl.
    - intros i j'. unfold same_x. cbn [fst snd]. rewrite Nat.eqb_eq. split; auto.
    - exists i0, j. auto.
  Qed.
  Theorem C158_rows : forall j0, (exists i, (i < nbin ex)%nat /\ (j0 < nbin ey)%nat /\ 0 < num i j0) ->
    shows_fraction_of_largest (fun k => snd k = j0) (nbin ex) (nbin ey) (fun i j n => n = num i j) (fun i j v => agg N2Row i j = Fin v).
  Proof.
    intros j0 (i & A & B & C). apply (by_max_result N2Row same_y (fun k => snd k = j0) (0%nat, j0)); [reflexivity| | | |].
    - intros k k' H x. unfold same_y in *. apply Nat.eqb_eq in H. rewrite H. reflexivity.
    - intro k. apply Nat.eqb_refl.
    - intros i' j'. unfold same_y. cbn [fst snd]. rewrite Nat.eqb_eq. split; auto.
    - exists i, j0. auto.
  Qed.
  Theorem C158_total : (exists i j, (i < nbin ex)%nat /\ (j < nbin ey)%nat /\ 0 < num i j) ->
    shows_fraction_of_largest (fun _ => True) (nbin ex) (nbin ey) (fun i j n => n = num i j) (fun i j v => agg N2Total i j = Fin v).
  Proof.
    intros (i & j & A & B & C). apply (by_max_result N2Total (fun _ _ => true) (fun _ => True) (0%nat, 0%nat)).
    - intros g ks k. cbn [pass]. rewrite filter_yes. reflexivity.
    - reflexivity.
    - reflexivity.
    - tauto.
    - exists i, j. auto.
  Qed.
  (** Densities. [w k]: the size of a bin in the sense of the normalisation. *)
  Lemma density_result norm (q : k3 -> k3 -> bool) (w : k3 -> R) (k0 : k3) :
    (forall ks g x k, In k (keys3 ex ey) -> In k ks -> (forall k', In k' ks -> q k k' = true -> g k' = Fin (x k')) -> Rsum (map x (filter (q k) ks)) <> 0 ->
       pass lx ly norm (map Fin ex) (map Fin ey) g ks k = Fin (x k / (Rsum (map x (filter (q k) ks)) * w k))) ->
    (forall k k', q k k' = true -> forall x, q k x = q k' x) -> (forall k, q k k = true) -> (forall k, In k (keys3 ex ey) -> 0 < w k) ->
    let ksl := filter (fun k : k3 => leg_eqb (snd k) l) (keys3 ex ey) in let c := leg_counts ex ey data ls in
    (exists k, In k ksl /\ q k0 k = true /\ 0 < c k) ->
    let D := Rsum (map (fun k => c k / w k) (filter (q k0) ksl)) in
    0 < D /\ forall i j, (i < nbin ex)%nat -> (j < nbin ey)%nat -> q k0 ((i, j), l) = true ->
      agg norm i j = Fin (num i j / (w ((i, j), l) * w ((i, j), l)) / D).
  Proof.
    intros PD QE QR W ksl c (kp & Ip & Qp & Cp) D.
    assert (IKS : forall k, In k ksl -> In k (keys3 ex ey)) by (intros k I; apply filter_In in I; tauto).
    assert (C0 : forall k, 0 <= c k) by (intro k; apply pos_INR).
    assert (POS : forall (h : k3 -> R) ks, (forall k, In k ks -> 0 <= h k) -> (exists k, In k ks /\ 0 < h k) -> 0 < Rsum (map h ks)).
    { intros h ks H0 (k & I & Hk). induction ks as [|x ks IH]; [destruct I|]. cbn [map Rsum fold_right].
      assert (N1 : 0 <= Rsum (map h ks)) by (apply Rsum_nonneg; intros y Iy; apply in_map_iff in Iy as (z & <- & Iz); apply H0; right; exact Iz).
      assert (N2 : 0 <= h x) by (apply H0; left; reflexivity).
      destruct I as [->|I]; [lra|]. assert (0 < Rsum (map h ks)) by (apply IH; [intros y Iy; apply H0; right; exact Iy|exact I]). lra. }
    set (N := Rsum (map c (filter (q k0) (keys3 ex ey)))).
    assert (PN : 0 < N) by (apply POS; [intros k _; apply C0|exists kp; split; [apply filter_In; auto|exact Cp]]).
    assert (PDD : 0 < D).
    { apply POS; [intros k I; apply filter_In in I as [I _]; apply Rmult_le_pos; [apply C0|apply Rlt_le, Rinv_0_lt_compat, W, IKS, I]|].
      exists kp. split; [apply filter_In; auto|]. apply Rdiv_lt_0_compat; [exact Cp|apply W, IKS, Ip]. }
    split; [exact PDD|]. intros i j A B Q.
    assert (IK : In ((i, j), l) ksl) by (apply filter_In; split; [apply in_keys3; auto|destruct l; reflexivity]).
    unfold agg. rewrite two_passes by assumption. fold ksl.
    set (x1 := fun k => c k / (N * w k)).
    set (g1 := pass lx ly norm (map Fin ex) (map Fin ey) (fun k => Fin (leg_counts ex ey data ls k)) (keys3 ex ey)).
    assert (G1 : forall k', In k' ksl -> q ((i, j), l) k' = true -> g1 k' = Fin (x1 k')).
    { intros k' I' Q'. unfold g1. assert (QQ : q k0 k' = true) by (rewrite (QE _ _ Q); exact Q').
      assert (EF : filter (q k') (keys3 ex ey) = filter (q k0) (keys3 ex ey)) by (apply filter_ext; intro z; symmetry; apply QE, QQ).
      rewrite (PD _ _ c k'); [rewrite EF; reflexivity|apply IKS, I'|apply IKS, I'|reflexivity|]. rewrite EF. fold N. lra. }
    assert (EF : filter (q ((i, j), l)) ksl = filter (q k0) ksl) by (apply filter_ext; intro z; symmetry; apply QE, Q).
    assert (SE : Rsum (map x1 (filter (q k0) ksl)) = D / N).
    { unfold D, x1. rewrite (map_ext_in _ (fun k => / N * (c k / w k))).
      - rewrite Rsum_map_scal. field. lra.
      - intros k I. apply filter_In in I as [I _]. specialize (W k (IKS k I)). field. lra. }
    rewrite (PD ksl g1 x1 ((i, j), l) (IKS _ IK) IK G1); rewrite EF, SE.
    - f_equal. unfold x1. specialize (W _ (IKS _ IK)). change (num i j) with (c ((i, j), l)). field. lra.
    - apply Rgt_not_eq. apply Rdiv_lt_0_compat; lra.
  Qed.
End C158.
Lemma one_leg (l : leg) (ks : list k2) : filter (fun k : k3 => leg_eqb (snd k) l) (list_prod ks [Inbound; Outbound]) = map (fun k => (k, l)) ks.
Proof. induction ks as [|k ks IH]; [reflexivity|]. cbn [list_prod map app filter snd]. destruct l; cbn [leg_eqb]; rewrite IH; reflexivity. Qed.
Lemma filter_map_c {X Y} (p : Y -> bool) (f : X -> Y) l : filter p (map f l) = map f (filter (fun x => p (f x)) l).
Proof. induction l as [|x l IH]; [reflexivity|]. cbn. rewrite IH. destruct (p (f x)); reflexivity. Qed.
Lemma cd_sums g (x : k3 -> R) q ks (k : k3) : (forall k', In k' ks -> q k k' = true -> g k' = Fin (x k')) -> sum_skip (map g (filter (q k) ks)) = Fin (Rsum (map x (filter (q k) ks))).
Proof.
  intro H. rewrite (map_ext_in g (fun k' => Fin (x k'))) by (intros k' I; apply filter_In in I as [I Q]; apply H; assumption). rewrite <- (map_map x Fin). apply sum_skip_fin.
Qed.
(** the sizes that the three densities refer to: the area of a bin, or its extent along one axis *)
Definition bin_size (norm : axnorm2) (lx ly : bool) (ex ey : list R) (i j : nat) : R :=
  match norm with N2Density => taken_width lx ex i * taken_width ly ey j | N2ColDensity => wid ey j | N2RowDensity => wid ex i | _ => 1 end.
(** and the groups of bins over which they are to integrate to one *)
Definition same_group (norm : axnorm2) (a b : nat * nat) : bool :=
  match norm with N2ColDensity => Nat.eqb (fst a) (fst b) | N2RowDensity => Nat.eqb (snd a) (snd b) | _ => true end.
Definition is_density (norm : axnorm2) : Prop := norm = N2Density \/ norm = N2ColDensity \/ norm = N2RowDensity.
Definition group_bins norm ex ey (k : nat * nat) : list (nat * nat) := filter (same_group norm k) (grid ex ey).
Lemma pass_density lx ly ex ey norm g x ks (k : k3) : is_density norm -> strictly ex -> strictly ey -> In k (keys3 ex ey) -> In k ks ->
  (forall k', In k' ks -> same_group norm (fst k) (fst k') = true -> g k' = Fin (x k')) ->
  Rsum (map x (filter (fun k' : k3 => same_group norm (fst k) (fst k')) ks)) <> 0 ->
  pass lx ly norm (map Fin ex) (map Fin ey) g ks k
  = Fin (x k / (Rsum (map x (filter (fun k' : k3 => same_group norm (fst k) (fst k')) ks)) * bin_size norm lx ly ex ey (fst (fst k)) (snd (fst k)))).
Proof.
  intros DN Sx Sy IK I HG NZ. assert (AB : (fst (fst k) < nbin ex /\ snd (fst k) < nbin ey)%nat) by (destruct k as [[i j] l']; apply in_keys3 in IK; exact IK). destruct AB as [A B].
  assert (GK : g k = Fin (x k)) by (apply HG; [exact I|unfold same_group; destruct DN as [->|[->| ->]]; cbn [fst snd]; rewrite ?Nat.eqb_refl; reflexivity]).
  assert (SS := cd_sums g x (fun k k' => same_group norm (fst k) (fst k')) ks k HG). cbv beta in SS.
  set (N := Rsum _) in *. set (i := fst (fst k)) in *. set (j := snd (fst k)) in *. destruct DN as [->|[->| ->]].
  - pose proof (taken_width_pos lx ex i Sx A) as PX. pose proof (taken_width_pos ly ey j Sy B) as PY.
    assert (EX : (if lx then exp10 (width (map Fin ex) i) else width (map Fin ex) i) = Fin (taken_width lx ex i)) by (rewrite (width_fin ex i A); unfold taken_width; destruct lx; [apply exp10_fin|reflexivity]).
    assert (EY : (if ly then exp10 (width (map Fin ey) j) else width (map Fin ey) j) = Fin (taken_width ly ey j)) by (rewrite (width_fin ey j B); unfold taken_width; destruct ly; [apply exp10_fin|reflexivity]).
    unfold pass. cbv zeta. fold i j. rewrite EX, EY, GK. cbn [same_group] in SS. rewrite filter_yes in SS. rewrite SS.
    unfold bin_size. rewrite !fin_div by lra. f_equal. field. repeat split; lra.
  - pose proof (wid_pos ey j Sy B) as PY. unfold pass. cbv zeta. fold i j. rewrite GK.
    change (sum_skip (map g (filter (same_x k) ks)) = Fin N) in SS. rewrite SS, (width_fin ey j B). unfold bin_size.
    rewrite (fin_div _ _ NZ). rewrite fin_div by lra. f_equal. field. split; [lra|exact NZ].
  - pose proof (wid_pos ex i Sx A) as PX. unfold pass. cbv zeta. fold i j. rewrite GK.
    change (sum_skip (map g (filter (same_y k) ks)) = Fin N) in SS. rewrite SS, (width_fin ex i A). unfold bin_size.
    rewrite (fin_div _ _ NZ). rewrite fin_div by lra. f_equal. field. split; [lra|exact NZ].
Qed.
Lemma densities lx ly ex ey data ls f l norm k0 : is_density norm -> strictly ex -> strictly ey -> unweighted data -> data <> [] -> (f = FDefault \/ f = FCount) ->
  (exists k, In k (group_bins norm ex ey k0) /\ (0 < number2 ex ey (fst k) (snd k) l data ls)%nat) ->
  let size k := bin_size norm lx ly ex ey (fst k) (snd k) in let n k := INR (number2 ex ey (fst k) (snd k) l data ls) in
  let D := Rsum (map (fun k => n k / size k) (group_bins norm ex ey k0)) in
  0 < D /\ (forall k, In k (grid ex ey) -> 0 < size k) /\ forall k, In k (group_bins norm ex ey k0) ->
    orbit_value (orbit_agg2 lx ly norm nolim nolim (map Fin ex) (map Fin ey) f data ls) (fst k) (snd k) l = Fin (n k / (size k * size k) / D).
Proof.
  intros DN Sx Sy U NE Hf (kp & Ip & Pp) size n D.
  set (q := fun a b : k3 => same_group norm (fst a) (fst b)). set (w := fun k : k3 => bin_size norm lx ly ex ey (fst (fst k)) (snd (fst k))).
  assert (W : forall i j, (i < nbin ex)%nat -> (j < nbin ey)%nat -> 0 < bin_size norm lx ly ex ey i j).
  { intros i j A B. destruct DN as [->|[->| ->]]; cbn [bin_size]; [apply Rmult_lt_0_compat; apply taken_width_pos; assumption|apply wid_pos; assumption|apply wid_pos; assumption]. }
  assert (KS : filter (q (k0, l)) (filter (fun k : k3 => leg_eqb (snd k) l) (keys3 ex ey)) = map (fun k => (k, l)) (group_bins norm ex ey k0)).
  { unfold keys3. rewrite one_leg, filter_map_c. unfold q, group_bins. cbn [fst]. reflexivity. }
  destruct (density_result lx ly ex ey data ls f l (strictly_ordered _ Sx) (strictly_ordered _ Sy) U NE Hf norm q w (k0, l)) as [PD V].
  - intros ks g x k IK I HG NZ. apply (pass_density lx ly ex ey norm g x ks k DN Sx Sy IK I HG NZ).
  - intros k k' H x. unfold q in *. destruct DN as [->|[->| ->]]; cbn [same_group] in *; [reflexivity| |]; apply Nat.eqb_eq in H; rewrite H; reflexivity.
  - intro k. unfold q. destruct DN as [->|[->| ->]]; cbn [same_group]; rewrite ?Nat.eqb_refl; reflexivity.
  - intros [[i j] l'] I. apply in_keys3 in I as [A B]. apply W; assumption.
  - exists (kp, l). unfold group_bins in Ip. apply filter_In in Ip as [Ip Q]. destruct kp as [i j]. split; [apply filter_In; split; [apply in_keys3, in_grid, Ip|destruct l; reflexivity]|]. split; [exact Q|]. apply (lt_INR 0). exact Pp.
  - rewrite KS, map_map in PD, V. split; [exact PD|]. split; [intros [i j] I; apply in_grid in I as [A B]; apply W; assumption|].
    intros [i j] I. unfold group_bins in I. apply filter_In in I as [I Q]. apply in_grid in I as [A B]. exact (V i j A B Q).
Qed.
(** In each leg the densities integrate to one (over all bins, over a column, over a row) ... *)
Theorem C158_densities_integrate_to_one : forall lx ly ex ey data ls f l norm k0, is_density norm -> strictly ex -> strictly ey -> unweighted data -> data <> [] -> (f = FDefault \/ f = FCount) ->
  (exists k, In k (group_bins norm ex ey k0) /\ (0 < number2 ex ey (fst k) (snd k) l data ls)%nat) ->
  exists v, (forall k, In k (group_bins norm ex ey k0) -> orbit_value (orbit_agg2 lx ly norm nolim nolim (map Fin ex) (map Fin ey) f data ls) (fst k) (snd k) l = Fin (v k))
    /\ Rsum (map (fun k => v k * bin_size norm lx ly ex ey (fst k) (snd k)) (group_bins norm ex ey k0)) = 1.
Proof.
  intros lx ly ex ey data ls f l norm k0 DN Sx Sy U NE Hf H. destruct (densities lx ly ex ey data ls f l norm k0 DN Sx Sy U NE Hf H) as (PD & W & V).
  eexists. split; [exact V|].
  set (D := Rsum (map (fun k => INR (number2 ex ey (fst k) (snd k) l data ls) / bin_size norm lx ly ex ey (fst k) (snd k)) (group_bins norm ex ey k0))) in *.
  rewrite (map_ext_in _ (fun k => / D * (INR (number2 ex ey (fst k) (snd k) l data ls) / bin_size norm lx ly ex ey (fst k) (snd k)))).
  - rewrite Rsum_map_scal. fold D. field. lra.
  - intros k I. apply filter_In in I as [I _]. specialize (W k I). field. lra.
Qed.
(** ... and with bins of one size they are the fraction of the data in the bin over its size. *)
Theorem C158_densities_partial : forall lx ly ex ey data ls f l norm k0 a, is_density norm -> strictly ex -> strictly ey -> unweighted data -> data <> [] -> (f = FDefault \/ f = FCount) ->
  (exists k, In k (group_bins norm ex ey k0) /\ (0 < number2 ex ey (fst k) (snd k) l data ls)%nat) ->
  (forall k, In k (group_bins norm ex ey k0) -> bin_size norm lx ly ex ey (fst k) (snd k) = a) ->
  forall k, In k (group_bins norm ex ey k0) ->
  orbit_value (orbit_agg2 lx ly norm nolim nolim (map Fin ex) (map Fin ey) f data ls) (fst k) (snd k) l
  = Fin (INR (number2 ex ey (fst k) (snd k) l data ls) / Rsum (map (fun k => INR (number2 ex ey (fst k) (snd k) l data ls)) (group_bins norm ex ey k0)) / a).
Proof.
  intros lx ly ex ey data ls f l norm k0 a DN Sx Sy U NE Hf H EA k I. destruct (densities lx ly ex ey data ls f l norm k0 DN Sx Sy U NE Hf H) as (PD & W & V).
  rewrite V by exact I. rewrite (EA k I).
  assert (Pa : 0 < a) by (rewrite <- (EA k I); apply W; unfold group_bins in I; apply filter_In in I; tauto).
  assert (E : Rsum (map (fun k => INR (number2 ex ey (fst k) (snd k) l data ls) / bin_size norm lx ly ex ey (fst k) (snd k)) (group_bins norm ex ey k0)) = / a * Rsum (map (fun k => INR (number2 ex ey (fst k) (snd k) l data ls)) (group_bins norm ex ey k0))).
  { rewrite <- Rsum_map_scal. f_equal. apply map_ext_in. intros k' I'. rewrite (EA k' I'). field. lra. }
  rewrite E in PD |- *. f_equal.
  assert (PS : Rsum (map (fun k => INR (number2 ex ey (fst k) (snd k) l data ls)) (group_bins norm ex ey k0)) <> 0) by (intro Z; rewrite Z in PD; lra).
  field. split; [exact PS|lra].
Qed.
(** With bins of different sizes they are not: of two data in bins of widths 1 and 2 the first gives 2/3 instead of 1/2. *)
Theorem C158_unequal_bins_refuted :
  let ex := [0; 1; 3] in let ey := [0; 1] in let data := [(Fin 1, Fin 1, Fin 1); (Fin 2, Fin 1, Fin 1)] in let ls := [Some Inbound; Some Inbound] in
  strictly ex /\ strictly ey /\ unweighted data
  /\ number2 ex ey 0 0 Inbound data ls = 1%nat /\ number2 ex ey 1 0 Inbound data ls = 1%nat
  /\ orbit_value (orbit_agg2 false false N2Density nolim nolim (map Fin ex) (map Fin ey) FDefault data ls) 0 0 Inbound = Fin (2 / 3)
  /\ 2 / 3 <> INR 1 / (INR 1 + INR 1) / (1 * 1).
Proof.
  intros ex ey data ls.
  assert (Sx : strictly ex) by (intros i j H; cbn in H; destruct j as [|[|[|j]]]; [lia| | |lia]; destruct i as [|[|i]]; try lia; cbn; lra).
  assert (Sy : strictly ey) by (intros i j H; cbn in H; destruct j as [|[|j]]; [lia| |lia]; destruct i as [|i]; try lia; cbn; lra).
  assert (U : unweighted data) by (intros r [<-|[<-|[]]]; reflexivity).
  split; [exact Sx|]. split; [exact Sy|]. split; [exact U|].
  assert (N0 : number2 ex ey 0 0 Inbound data ls = 1%nat) by (unfold number2, tally, cell2, ex, ey, data, ls, bin, inb; cbn [nth combine filter fst snd]; decb; reflexivity).
  assert (N1 : number2 ex ey 1 0 Inbound data ls = 1%nat) by (unfold number2, tally, cell2, ex, ey, data, ls, bin, inb; cbn [nth combine filter fst snd]; decb; reflexivity).
  split; [exact N0|]. split; [exact N1|]. split.
  - destruct (densities false false ex ey data ls FDefault Inbound N2Density (0%nat, 0%nat) (or_introl eq_refl) Sx Sy U ltac:(discriminate) (or_introl eq_refl)) as (_ & _ & V).
    { exists (0%nat, 0%nat). split; [cbn; tauto|]. cbn [fst snd]. rewrite N0. lia. }
    etransitivity; [apply (V (0%nat, 0%nat)); cbn; tauto|]. cbn [group_bins same_group grid nbin List.length Nat.sub seq list_prod map app filter ex ey fst snd].
    fold ex ey. rewrite N0, N1. unfold bin_size, taken_width, wid, ex, ey. cbn. f_equal. field.
  - cbn. lra.
Qed.
(* ------------------------------------------------------------------ C157/C158: a case with data in both legs *)
Example C158_ex : let ex := [0; 1; 2] in let ey := [0; 1] in
  let data := [(Fin 1, Fin 1, Fin 1); (Fin 2, Fin 1, Fin 1); (Fin 2, Fin 1, Fin 1); (Fin 1, Fin 1, Fin 1)] in let ls := [Some Inbound; Some Inbound; Some Outbound; None] in
  strictly ex /\ strictly ey /\ unweighted data /\ data <> []
  /\ number2 ex ey 0 0 Inbound data ls = 1%nat /\ number2 ex ey 1 0 Inbound data ls = 1%nat
  /\ number2 ex ey 0 0 Outbound data ls = 0%nat /\ number2 ex ey 1 0 Outbound data ls = 1%nat.
Proof.
  intros ex ey data ls.
  split; [intros i j H; cbn in H; destruct j as [|[|[|j]]]; [lia| | |lia]; destruct i as [|[|i]]; try lia; cbn; lra|].
  split; [intros i j H; cbn in H; destruct j as [|[|j]]; [lia| |lia]; destruct i as [|i]; try lia; cbn; lra|].
  split; [intros r [<-|[<-|[<-|[<-|[]]]]]; reflexivity|]. split; [discriminate|].
  repeat split; unfold number2, tally, cell2, ex, ey, data, ls, bin, inb; cbn [nth combine filter fst snd]; decb; reflexivity.
Qed.
(* ------------------------------------------------------------------ C159: drawing *)
(** The documented kinds of plot: those that begin with i or I, o or O, b or B. *)
Definition names_leg (kind : string) (l : leg) : Prop :=
  exists rest, kind = String "i" rest /\ l = Inbound \/ kind = String "I" rest /\ l = Inbound \/ kind = String "o" rest /\ l = Outbound \/ kind = String "O" rest /\ l = Outbound.
Definition names_both (kind : string) : Prop := exists rest, kind = String "b" rest \/ kind = String "B" rest.
Lemma lowered (c d : ascii) : lower_char c = d -> (97 <= nat_of_ascii d <= 122)%nat -> c = d \/ (nat_of_ascii c + 32)%nat = nat_of_ascii d.
Proof.
  unfold lower_char. cbv zeta. destruct (Nat.leb 65 (nat_of_ascii c) && Nat.leb (nat_of_ascii c) 90)%bool eqn:E; intros H B; [right|left; exact H].
  apply andb_true_iff in E as [E1 E2]. apply Nat.leb_le in E1, E2. subst d. rewrite nat_ascii_embedding; lia.
Qed.
Lemma lowered_is (c d u : ascii) : (nat_of_ascii u + 32)%nat = nat_of_ascii d -> (97 <= nat_of_ascii d <= 122)%nat -> (Ascii.eqb (lower_char c) d = true <-> c = d \/ c = u).
Proof.
  intros HU B. rewrite Ascii.eqb_eq. split.
  - intro H. destruct (lowered c d H B) as [->|E]; [left; reflexivity|right]. assert (EN : nat_of_ascii c = nat_of_ascii u) by lia.
    rewrite <- (ascii_nat_embedding c), <- (ascii_nat_embedding u), EN. reflexivity.
  - intros [->| ->]; unfold lower_char; cbv zeta.
    + replace (Nat.leb (nat_of_ascii d) 90) with false by (symmetry; apply Nat.leb_gt; lia). rewrite andb_false_r. reflexivity.
    + replace (Nat.leb 65 (nat_of_ascii u)) with true by (symmetry; apply Nat.leb_le; lia). replace (Nat.leb (nat_of_ascii u) 90) with true by (symmetry; apply Nat.leb_le; lia).
      cbn [andb]. rewrite HU. apply ascii_nat_embedding.
Qed.
Lemma plot_kind_spec kind : (forall l, plot_kind kind = Ok l <-> names_leg kind l) /\ (plot_kind kind = Err NotImplementedError <-> names_both kind)
  /\ (plot_kind kind = Err IndexError <-> kind = EmptyString) /\ (plot_kind kind = Err ValueError <-> kind <> EmptyString /\ ~ names_both kind /\ forall l, ~ names_leg kind l).
Proof.
  unfold plot_kind, names_leg, names_both. destruct kind as [|c rest]; cbn [lower].
  { split; [intro l; split; [discriminate|intros (r & H); repeat destruct H as [[H _]|H]; try discriminate; destruct H; discriminate]|].
    split; [split; [discriminate|intros (r & [H|H]); discriminate]|]. split; [split; reflexivity|]. split; [discriminate|intros [H _]; destruct (H eq_refl)]. }
  pose proof (lowered_is c "i" "I" eq_refl ltac:(cbn; lia)) as LI. pose proof (lowered_is c "o" "O" eq_refl ltac:(cbn; lia)) as LO. pose proof (lowered_is c "b" "B" eq_refl ltac:(cbn; lia)) as LB.
  destruct (Ascii.eqb (lower_char c) "i") eqn:EI.
  { assert (H : c = "i"%char \/ c = "I"%char) by (apply LI; reflexivity). clear LI LO LB. split; [|split; [|split]].
    - intro l. split; [intro K; injection K as <-; exists rest; destruct H as [->| ->]; auto|]. intros (r & K).
      destruct H as [->| ->]; destruct K as [[K ->]|[[K ->]|[[K ->]|[K ->]]]]; try discriminate; reflexivity.
    - split; [discriminate|intros (r & K); destruct H as [->| ->]; destruct K as [K|K]; discriminate].
    - split; discriminate.
    - split; [discriminate|]. intros (_ & _ & K). destruct (K Inbound). exists rest. destruct H as [->| ->]; auto. }
  destruct (Ascii.eqb (lower_char c) "o") eqn:EO.
  { assert (H : c = "o"%char \/ c = "O"%char) by (apply LO; reflexivity). clear LI LO LB. split; [|split; [|split]].
    - intro l. split; [intro K; injection K as <-; exists rest; destruct H as [->| ->]; auto|]. intros (r & K).
      destruct H as [->| ->]; destruct K as [[K ->]|[[K ->]|[[K ->]|[K ->]]]]; try discriminate; reflexivity.
    - split; [discriminate|intros (r & K); destruct H as [->| ->]; destruct K as [K|K]; discriminate].
    - split; discriminate.
    - split; [discriminate|]. intros (_ & _ & K). destruct (K Outbound). exists rest. destruct H as [->| ->]; auto. }
  assert (NI : c <> "i"%char /\ c <> "I"%char) by (split; intros ->; discriminate). assert (NO : c <> "o"%char /\ c <> "O"%char) by (split; intros ->; discriminate).
  assert (NL : forall l, ~ exists r, String c rest = String "i" r /\ l = Inbound \/ String c rest = String "I" r /\ l = Inbound \/ String c rest = String "o" r /\ l = Outbound \/ String c rest = String "O" r /\ l = Outbound).
  { intros l (r & [[K _]|[[K _]|[[K _]|[K _]]]]); injection K as K _; tauto. }
  destruct (Ascii.eqb (lower_char c) "b") eqn:EB.
  { assert (H : c = "b"%char \/ c = "B"%char) by (apply LB; reflexivity). split; [|split; [|split]].
    - intro l. split; [discriminate|intro K; destruct (NL l K)].
    - split; [intros _; exists rest; destruct H as [->| ->]; auto|reflexivity].
    - split; discriminate.
    - split; [discriminate|]. intros (_ & K & _). destruct K. exists rest. destruct H as [->| ->]; auto. }
  assert (NB : c <> "b"%char /\ c <> "B"%char) by (split; intros ->; discriminate).
  assert (NN : ~ exists r, String c rest = String "b" r \/ String c rest = String "B" r) by (intros (r & [K|K]); injection K as K _; tauto).
  split; [|split; [|split]].
  - intro l. split; [discriminate|intro K; destruct (NL l K)].
  - split; [discriminate|intro K; destruct (NN K)].
  - split; discriminate.
  - split; [intros _; split; [discriminate|]; split; assumption|reflexivity].
Qed.
(** Without a colour bar, make_one_plot draws exactly the documented legs; a plot of both legs is refused, as is any other kind. *)
Theorem C159_kinds_partial : forall norm kind,
  (forall l, make_one_plot norm kind false false false = Ok l <-> names_leg kind l)
  /\ (make_one_plot norm kind false false false = Err NotImplementedError <-> names_both kind)
  /\ (make_one_plot norm kind false false false = Err IndexError <-> kind = EmptyString)
  /\ (make_one_plot norm kind false false false = Err ValueError <-> kind <> EmptyString /\ ~ names_both kind /\ forall l, ~ names_leg kind l).
Proof.
  intros norm kind. assert (E : make_one_plot norm kind false false false = plot_kind kind) by (unfold make_one_plot; destruct (plot_kind kind); reflexivity).
  rewrite E. apply plot_kind_spec.
Qed.
(** A colour bar (the default) is never drawn: every plot of a leg ends in an error, as does the plot of both legs side by side and the three-panel plot. *)
Theorem C159_colour_bar_refuted : forall norm kind given limit, (exists e, make_one_plot norm kind given limit true = Err e) /\ (exists e, make_in_out_plot norm given limit true = Err e)
  /\ make_in_out_both_plot = Err NotImplementedError.
Proof.
  intros norm kind given limit. unfold make_one_plot, make_in_out_plot, put_on_ax. split; [|split; [|reflexivity]].
  - destruct (plot_kind kind); [|eexists; reflexivity]. cbn [bind]. destruct (limits_ok norm given limit); eexists; reflexivity.
  - destruct (limits_ok norm given limit); eexists; reflexivity.
Qed.
Theorem C159_in_out : forall norm, make_in_out_plot norm false false false = Ok [Inbound; Outbound].
Proof. reflexivity. Qed.
(** Colours limited to the bulk of the data: this works with a norm of the caller, or the default one of plots normalised by columns or rows. *)
Theorem C159_limited_colours : forall norm kind given l, names_leg kind l ->
  (make_one_plot norm kind given true false = Ok l <-> given = true \/ norm = N2Col \/ norm = N2Row)
  /\ (make_in_out_plot norm given true false = Ok [Inbound; Outbound] <-> given = true \/ norm = N2Col \/ norm = N2Row).
Proof.
  intros norm kind given l H. unfold make_one_plot, make_in_out_plot. rewrite (proj2 (proj1 (plot_kind_spec kind) l) H). cbn [bind].
  destruct given, norm; cbn; split; split; intro K; auto; try discriminate; destruct K as [K|[K|K]]; discriminate.
Qed.
(** The axes of the two legs: mirror images that cover both ranges and end at limits of the given axes. *)
Theorem C159_axes : forall a b, let (i, o) := in_out_limits a b in
  i = (snd o, fst o) /\ (forall x, In x [fst a; snd a; fst b; snd b] -> (fst o <= x <= snd o)%Z) /\ In (fst o) [fst a; snd a; fst b; snd b] /\ In (snd o) [fst a; snd a; fst b; snd b].
Proof.
  intros [a0 a1] [b0 b1]. unfold in_out_limits. cbn [fst snd]. split; [reflexivity|]. split; [|cbn [In]; lia].
  intros x [<-|[<-|[<-|[<-|[]]]]]; lia.
Qed.
Example C159_ex : names_leg "Outbound" Outbound /\ names_leg "i" Inbound /\ names_both "Both" /\ plot_kind "perihelion" = Err ValueError.
Proof. repeat split; [exists "utbound"%string|exists ""%string|exists "oth"%string]; auto. Qed.
