(** C68, C69, C70, C111: the ICME catalogue. *)
From Coq Require Import List String Ascii Bool Arith ZArith Lia Permutation Sorted.
From Verif Require Import Py PyStr Sort Icme.
Import ListNotations.
Open Scope Z_scope.

(* ---------------------------------------------------------------- C68 *)
Lemma prepare_map b data : prepare_intervals b data =
  map (fun e => mkI e (match e_mo_end e with
                       | Some x => Some x
                       | None => match (if b then e_mo_start e else None) with
                                 | Some y => Some (y + hours24)
                                 | None => t_add (e_start e) hours24
                                 end
                       end)) data.
Proof.
  unfold prepare_intervals, fill. destruct b; rewrite !map_map; apply map_ext; intros e; cbn [fst snd];
    destruct (e_mo_end e); cbn [is_nat fst snd t_add option_map]; try reflexivity.
  destruct (e_mo_start e); cbn [is_nat fst snd t_add option_map]; reflexivity.
Qed.
(** One row per event, in order; the end of the interval is the documented one; it is unknown only if all three times are. *)
Theorem C68_interval_end data :
  List.length (prepare_intervals true data) = List.length data /\
  forall i e, nth_error data i = Some e ->
  exists r, nth_error (prepare_intervals true data) i = Some r /\ i_event r = e
  /\ (forall x, e_mo_end e = Some x -> i_end r = Some x)
  /\ (forall y, e_mo_end e = None -> e_mo_start e = Some y -> i_end r = Some (y + 24 * 3600))
  /\ (forall z, e_mo_end e = None -> e_mo_start e = None -> e_start e = Some z -> i_end r = Some (z + 24 * 3600))
  /\ (i_end r = None <-> e_mo_end e = None /\ e_mo_start e = None /\ e_start e = None).
Proof.
  rewrite prepare_map. split; [apply map_length|]. intros i e Hi. rewrite nth_error_map, Hi. cbn.
  eexists. split; [reflexivity|]. cbn [i_event i_end]. split; [reflexivity|].
  destruct (e_mo_end e) as [x|], (e_mo_start e) as [y|], (e_start e) as [z|]; cbn [t_add option_map];
    repeat split; intros; try congruence; try tauto;
    repeat match goal with H : Some _ = Some _ |- _ => injection H as H; subst end; try reflexivity; intuition discriminate.
Qed.
(** For times in order the interval does not end before it starts. *)
Theorem C68_not_before_start data r :
  In r (prepare_intervals true data) ->
  let e := i_event r in
  (forall s m, e_start e = Some s -> e_mo_start e = Some m -> s <= m) ->
  (forall s x, e_start e = Some s -> e_mo_end e = Some x -> s <= x) ->
  forall s, e_start e = Some s -> exists x, i_end r = Some x /\ s <= x.
Proof.
  rewrite prepare_map. intros Hin. apply in_map_iff in Hin. destruct Hin as [e [<- _]]. cbn [i_event i_end].
  intros H1 H2 s Hs. rewrite Hs. destruct (e_mo_end e) as [x|] eqn:Ee; [exists x; split; [reflexivity|apply H2; congruence]|].
  destruct (e_mo_start e) as [y|] eqn:Em; cbn [t_add option_map].
  - exists (y + hours24). split; [reflexivity|]. specialize (H1 s y Hs eq_refl). unfold hours24. lia.
  - exists (s + hours24). split; [reflexivity|]. unfold hours24. lia.
Qed.
Example C68_case : map i_end (prepare_intervals true
   [mkE "a" (Some "Wind"%string) (Some 0) (Some 100) (Some 200);
    mkE "b" (Some "Wind"%string) (Some 0) (Some 100) None;
    mkE "c" (Some "Wind"%string) (Some 0) None None; mkE "d" None None None None])
  = [Some 200; Some 86500; Some 86400; None].
Proof. reflexivity. Qed.

(* ---------------------------------------------------------------- C69 *)
(** Whatever order argsort leaves equal starts in. *)
Definition sorts (argsort : list (time * time) -> list (time * time)) : Prop :=
  forall l, Permutation (argsort l) l /\ StronglySorted (fun p q => pair_leb p q = true) (argsort l).
(** [t] lies in the interval of a catalogue event with known start and end, ends included. *)
Definition in_some_icme (rows : list interval_row) (t : time) : Prop :=
  exists r u s x, In r rows /\ t = Some u /\ e_start (i_event r) = Some s /\ e_mo_end (i_event r) = Some x /\ s <= u <= x.
Lemma ord_trans a b c : t_ord a b = true -> t_ord b c = true -> t_ord a c = true.
Proof. destruct a, b, c; cbn; rewrite ?Z.leb_le; try congruence; try lia; auto. Qed.
Lemma searchsorted_firstn (l : list (time * time)) t : StronglySorted (fun p q => pair_leb p q = true) l ->
  firstn (searchsorted_right (map fst l) t) l = filter (fun p => t_ord (fst p) t) l.
Proof.
  induction l as [|p l IH]; intros Hs; [reflexivity|]. inversion Hs as [|? ? Hs' Hf]; subst.
  cbn [map searchsorted_right filter]. destruct (t_ord (fst p) t) eqn:E.
  - cbn [firstn]. f_equal. apply IH, Hs'.
  - cbn [firstn]. symmetry. clear IH Hs Hs'. induction l as [|q l IHl]; [reflexivity|]. inversion Hf; subst. cbn [filter].
    destruct (t_ord (fst q) t) eqn:E'; [|apply IHl; assumption].
    exfalso. assert (t_ord (fst p) t = true); [|congruence]. eapply ord_trans; [exact H1|exact E'].
Qed.
Lemma contained_spec (l : list (time * time)) t : StronglySorted (fun p q => pair_leb p q = true) l ->
  contained l t = true <-> exists p u x, In p l /\ t = Some u /\ snd p = Some x /\ (exists s, fst p = Some s /\ s <= u) /\ u <= x.
Proof.
  intros Hs. unfold contained. cbv zeta. rewrite firstn_map, searchsorted_firstn by exact Hs.
  rewrite andb_true_iff, existsb_exists. split.
  - intros [_ [e [He Hle]]]. apply in_map_iff in He. destruct He as [p [<- Hp]]. apply filter_In in Hp. destruct Hp as [Hp Ho].
    destruct t as [u|]; [|discriminate]. destruct (snd p) as [x|] eqn:Ex; [|discriminate]. cbn in Hle. apply Z.leb_le in Hle.
    destruct (fst p) as [s|] eqn:Es; [|discriminate]. cbn in Ho. apply Z.leb_le in Ho. exists p, u, x. rewrite Ex, Es. repeat split; auto.
    exists s; split; [reflexivity|exact Ho].
  - intros (p & u & x & Hp & -> & Hx & [s [Hss Hsu]] & Hux).
    assert (Hin : In p (filter (fun p => t_ord (fst p) (Some u)) l)).
    { apply filter_In. split; [exact Hp|]. rewrite Hss. cbn. apply Z.leb_le, Hsu. }
    split.
    + apply Nat.ltb_lt. destruct (searchsorted_right (map fst l) (Some u)) eqn:E; [|lia].
      rewrite <- (searchsorted_firstn l (Some u) Hs), E in Hin. destruct Hin.
    + exists (snd p). split; [apply in_map, Hin|]. rewrite Hx. cbn. apply Z.leb_le, Hux.
Qed.
(** The answer has the labels of the input in their order, and is true exactly at times in an interval: any catalogue, sorted or
    not, with nested or overlapping events, any times. *)
Theorem C69_contains_is_membership {L} argsort rows (times : list (L * time)) : sorts argsort ->
  map fst (contains argsort rows times) = map fst times /\
  forall i l t, nth_error times i = Some (l, t) ->
    exists b, nth_error (contains argsort rows times) i = Some (l, b) /\ (b = true <-> in_some_icme rows t).
Proof.
  intros Hsort.
  assert (H0 : rows = [] -> strict_intervals rows = []) by (intros ->; reflexivity).
  set (st := strict_intervals rows) in *.
  set (sorted := argsort (map (fun r => (e_start (i_event r), e_mo_end (i_event r))) st)).
  assert (Hg : forall t, contained sorted t = true <-> in_some_icme rows t).
  { intros t. destruct (Hsort (map (fun r => (e_start (i_event r), e_mo_end (i_event r))) st)) as [Hp Hs].
    fold sorted in Hp, Hs. rewrite contained_spec by exact Hs. split.
    - intros (p & u & x & Hin & -> & Hx & [s [Hss Hsu]] & Hux).
      apply (Permutation_in _ Hp) in Hin. apply in_map_iff in Hin. destruct Hin as [r [<- Hr]]. cbn in Hx, Hss.
      unfold st, strict_intervals in Hr. apply filter_In in Hr. exists r, u, s, x. repeat split; tauto.
    - intros (r & u & s & x & Hr & -> & Hss & Hx & H1 & H2). exists (Some s, Some x), u, x. repeat split; auto.
      + apply (Permutation_in _ (Permutation_sym Hp)). apply in_map_iff. exists r. rewrite Hss, Hx. split; [reflexivity|].
        apply filter_In. split; [exact Hr|]. rewrite Hx. reflexivity.
      + exists s. auto. }
  assert (He : st = [] -> forall t, ~ in_some_icme rows t).
  { intros H t (r & u & s & x & Hr & _ & _ & Hx & _). assert (Hi : In r st); [|rewrite H in Hi; destruct Hi].
    apply filter_In. split; [exact Hr|]. rewrite Hx. reflexivity. }
  assert (Hall : contains argsort rows times = map (fun x => (fst x, match st with [] => false | _ => contained sorted (snd x) end)) times).
  { unfold contains. fold st. destruct times as [|x times]; [reflexivity|].
    clear Hg He. subst sorted. destruct rows as [|r rows]; [unfold st; reflexivity|]. unfold st. destruct (strict_intervals (r :: rows)); reflexivity. }
  rewrite Hall. split.
  - rewrite map_map. reflexivity.
  - intros i l t Hi. rewrite nth_error_map, Hi. cbn. eexists. split; [reflexivity|].
    destruct st eqn:E; [split; [discriminate|intros H; exfalso; exact (He eq_refl t H)]|apply Hg].
Qed.
Lemma sort_by_sorts : sorts (sort_by pair_leb).
Proof.
  intros l. split; [apply sort_by_perm|]. apply sort_by_sorted.
  - intros [a1 a2] [b1 b2]. unfold pair_leb; cbn. destruct a1, b1; cbn; rewrite ?Z.leb_le; auto. lia.
  - intros a b c. apply ord_trans.
Qed.
(** A short event nested in a long one: the time after the short one is still in the long one. *)
Example C69_case : contains (sort_by pair_leb)
   (prepare_intervals true [mkE "long" (Some "Wind"%string) (Some 0) (Some 10) (Some 100);
                            mkE "short" (Some "Wind"%string) (Some 20) (Some 21) (Some 30);
                            mkE "open" (Some "Wind"%string) (Some 200) (Some 210) None])
   [("a"%string, Some 50); ("b"%string, Some 100); ("c"%string, Some 101); ("d"%string, Some 205); ("e"%string, None)]
  = [("a"%string, true); ("b"%string, true); ("c"%string, false); ("d"%string, false); ("e"%string, false)].
Proof. reflexivity. Qed.

(* ---------------------------------------------------------------- C70 *)
Definition same_craft (e : event) (spacecraft : string) : Prop := exists n, e_sc e = Some n /\ lower n = lower spacecraft.
Lemma lookup_last_In k m v : lookup_last k m = Some v -> In (k, v) m.
Proof.
  induction m as [|[k' w] r IH]; cbn; [discriminate|]. destruct (lookup_last k r); [intros H; right; apply IH, H|].
  destruct (String.eqb_spec k' k) as [->|]; [intros H; injection H as ->; auto|discriminate].
Qed.
Lemma lookup_last_none k m : lookup_last k m = None -> forall v, ~ In (k, v) m.
Proof.
  induction m as [|[k' w] r IH]; cbn; [auto|]. destruct (lookup_last k r); [discriminate|].
  destruct (String.eqb_spec k' k) as [->|Hn]; [discriminate|]. intros _ v [H|H]; [congruence|]. exact (IH eq_refl v H).
Qed.
Lemma uniq_In x l : In x (uniq l) <-> In x l.
Proof.
  induction l as [|y r IH]; cbn; [tauto|]. rewrite filter_In, IH. split; [tauto|].
  intros [->|H]; [auto|]. destruct (String.eqb_spec y x) as [->|Hn]; [auto|]. right. split; [exact H|]. reflexivity.
Qed.
Lemma names_ok data : Forall (fun e => exists n, e_sc e = Some n) data ->
  exists names, mapM (fun e => match e_sc e with Some n => Ok n | None => Err AttributeError end) data = Ok names
   /\ forall n, In n names <-> exists e, In e data /\ e_sc e = Some n.
Proof.
  induction data as [|e r IH]; intros H.
  - exists []. split; [reflexivity|]. intros n. split; [intros []|intros [e [[] _]]].
  - inversion H as [|? ? [n Hn] Hr]; subst. destruct (IH Hr) as (names & E & HI). exists (n :: names). cbn [mapM]. rewrite Hn. cbn [bind].
    rewrite E. split; [reflexivity|]. intros m. cbn. rewrite HI. split.
    + intros [->|(e' & He & Hm)]; [exists e; auto|exists e'; auto].
    + intros (e' & [->|He] & Hm); [left; congruence|right; exists e'; auto].
Qed.
(** With one spelling for each name in the catalogue, the filter keeps, in order, exactly the events of the spacecraft asked for,
    whatever the case of the letters. *)
Theorem C70_filter_by_spacecraft_partial data spacecraft kept :
  (forall e e' n n', In e data -> In e' data -> e_sc e = Some n -> e_sc e' = Some n' -> lower n = lower n' -> n = n') ->
  filter_events data spacecraft = Ok kept ->
  (exists keep, kept = filter keep data) /\ forall e, In e kept <-> In e data /\ same_craft e spacecraft.
Proof.
  intros Hone Hf. unfold filter_events in Hf.
  destruct (mapM _ data) as [names|] eqn:E; [|discriminate]. cbn [bind] in Hf. injection Hf as <-.
  assert (Hnamed : Forall (fun e => exists n, e_sc e = Some n) data).
  { clear Hone. revert names E. induction data as [|e r IH]; intros names E; [constructor|]. cbn [mapM] in E.
    destruct (e_sc e) as [n|] eqn:En; [|discriminate]. cbn [bind] in E. destruct (mapM _ r) as [nr|] eqn:Er; [|discriminate].
    constructor; [exists n; exact En|]. apply (IH nr eq_refl). }
  destruct (names_ok data Hnamed) as (names' & E' & HI). rewrite E in E'. injection E' as <-.
  split; [eexists; reflexivity|]. intros e. rewrite filter_In.
  destruct (lookup_last (lower spacecraft) (name_map (uniq names))) as [a|] eqn:EL.
  - apply lookup_last_In in EL. unfold name_map in EL. apply in_map_iff in EL. destruct EL as [a' [Ha Hin]]. injection Ha as Hlow ->.
    apply uniq_In, HI in Hin. destruct Hin as [e0 [He0 Hsc0]]. split.
    + intros [He Heq]. split; [exact He|]. destruct (e_sc e) as [n|] eqn:En; [|discriminate]. apply String.eqb_eq in Heq. subst n.
      exists a. auto.
    + intros [He [n [Hn Hl]]]. split; [exact He|]. rewrite Hn. apply String.eqb_eq. apply (Hone e e0 n a He He0 Hn Hsc0). congruence.
  - split.
    + intros [He Heq]. exfalso. destruct (e_sc e) as [n|] eqn:En; [|discriminate]. apply String.eqb_eq in Heq. subst n.
      apply (lookup_last_none _ _ EL spacecraft). unfold name_map. apply in_map_iff. exists spacecraft. split; [reflexivity|].
      apply uniq_In, HI. exists e. auto.
    + intros [He [n [Hn Hl]]]. exfalso. apply (lookup_last_none _ _ EL n). unfold name_map. apply in_map_iff. exists n.
      split; [congruence|]. apply uniq_In, HI. exists e. auto.
Qed.
(** With two spellings of one name in the catalogue, some event of that spacecraft is lost, whichever spelling is asked for. *)
Theorem C70_two_spellings_refuted data spacecraft kept e e' n n' :
  In e data -> In e' data -> e_sc e = Some n -> e_sc e' = Some n' -> n <> n' ->
  lower n = lower spacecraft -> lower n' = lower spacecraft ->
  filter_events data spacecraft = Ok kept -> ~ In e kept \/ ~ In e' kept.
Proof.
  intros He He' Hn Hn' Hne Hl Hl' Hf. unfold filter_events in Hf.
  destruct (mapM _ data) as [names|]; [|discriminate]. cbn [bind] in Hf. injection Hf as <-.
  set (a := match lookup_last _ _ with Some n0 => n0 | None => spacecraft end).
  destruct (String.eqb_spec n a) as [Hna|Hna].
  - right. rewrite filter_In, Hn'. intros [_ H]. apply String.eqb_eq in H. congruence.
  - left. rewrite filter_In, Hn. intros [_ H]. apply String.eqb_eq in H. congruence.
Qed.
(** An event without spacecraft name: AttributeError, whatever is asked for. *)
Theorem C70_unnamed_event_refuted data spacecraft e : In e data -> e_sc e = None -> filter_events data spacecraft = Err AttributeError.
Proof.
  intros He Hn. unfold filter_events.
  assert (E : mapM (fun e => match e_sc e with Some n => Ok n | None => Err AttributeError end) data = Err AttributeError); [|rewrite E; reflexivity].
  induction data as [|a r IH]; [destruct He|]. cbn [mapM]. destruct He as [->|He]; [rewrite Hn; reflexivity|].
  destruct (e_sc a); cbn [bind]; [rewrite (IH He)|]; reflexivity.
Qed.
Example C70_filter_case :
  let wind := mkE "w1" (Some "Wind"%string) (Some 0) None None in
  let wind2 := mkE "w2" (Some "Wind"%string) (Some 9) None None in
  let ace := mkE "a" (Some "ACE"%string) (Some 5) None None in
  filter_events [wind; ace; wind2] "wIND" = Ok [wind; wind2] /\ filter_events [wind; ace] "Juno" = Ok [] /\
  filter_events [wind; mkE "w3" (Some "WIND"%string) (Some 9) None None] "Wind" = Ok [mkE "w3" (Some "WIND"%string) (Some 9) None None].
Proof. repeat split. Qed.
(** Events in a range: those whose interval has a time in common with it. *)
Theorem C70_events_in_range rows a b r s x :
  a <= b -> e_start (i_event r) = Some s -> i_end r = Some x -> s <= x ->
  In r (get_events_in_range rows (Some a) (Some b)) <-> In r rows /\ exists t, a <= t <= b /\ s <= t <= x.
Proof.
  intros Hab Hs Hx Hsx. unfold get_events_in_range. rewrite filter_In, Hs, Hx. cbn. rewrite andb_true_iff, !Z.leb_le. split.
  - intros [Hr [H1 H2]]. split; [exact Hr|]. exists (Z.max a s). lia.
  - intros [Hr [t Ht]]. split; [exact Hr|]. lia.
Qed.
Theorem C70_range_keeps_order rows a b : exists keep, get_events_in_range rows a b = filter keep rows.
Proof. eexists. reflexivity. Qed.

(** The cache over histories of loads: [served t] is what the server has at time t. *)
Fixpoint loads (served : Z -> list event) (c : option cached) (nows : list Z) : list (list event * bool) :=
  match nows with
  | [] => []
  | t :: r => let '(d, dl, c') := load true t (served t) c in (d, dl) :: loads served c' r
  end.
Fixpoint later (t0 : Z) (l : list Z) : Prop := match l with [] => True | t :: r => t0 <= t /\ later t r end.
Lemma loads_fresh served : forall nows t0 c,
  (forall x, c = Some x -> c_data x = served (c_mtime x) /\ c_mtime x <= t0) -> later t0 nows ->
  Forall2 (fun now r => exists t, now - 30 * 86400 <= t <= now /\ fst r = served t) nows (loads served c nows).
Proof.
  induction nows as [|t r IH]; intros t0 c Hc Hl; [constructor|]. destruct Hl as [Ht Hl]. cbn [loads]. unfold load.
  destruct c as [x|].
  - destruct (Hc x eq_refl) as [Hd Hm]. destruct (days30 <? t - c_mtime x) eqn:E.
    + constructor; [exists t; cbn; split; [lia|reflexivity]|]. apply (IH t); [|exact Hl]. intros y Hy. injection Hy as <-. cbn. split; [reflexivity|lia].
    + apply Z.ltb_ge in E. unfold days30 in E. constructor; [exists (c_mtime x); cbn; split; [lia|exact Hd]|].
      apply (IH t); [|exact Hl]. intros y Hy. injection Hy as <-. split; [exact Hd|lia].
  - constructor; [exists t; cbn; split; [lia|reflexivity]|]. apply (IH t); [|exact Hl]. intros y Hy. injection Hy as <-. cbn. split; [reflexivity|lia].
Qed.
(** Every load gives the catalogue as it was at most thirty days before. *)
Theorem C70_data_at_most_30_days_old served nows t0 : later t0 nows ->
  Forall2 (fun now r => exists t, now - 30 * 86400 <= t <= now /\ fst r = served t) nows (loads served None nows).
Proof. apply loads_fresh. intros x H; discriminate. Qed.
(** It is downloaded exactly if there is no cache or the cache is more than thirty days old. *)
Theorem C70_downloads_iff_stale now served c : 
  let '(_, downloaded, _) := load true now served c in
  downloaded = true <-> (c = None \/ exists x, c = Some x /\ now - c_mtime x > 30 * 86400).
Proof.
  unfold load. destruct c as [x|].
  - destruct (days30 <? now - c_mtime x) eqn:E; unfold days30 in E.
    + apply Z.ltb_lt in E. split; [right; exists x; split; [reflexivity|lia]|reflexivity].
    + apply Z.ltb_ge in E. split; [discriminate|]. intros [H|[y [H H']]]; [discriminate|]. injection H as <-. lia.
  - split; auto.
Qed.
Example C70_cache_case : map snd (loads (fun _ => []) None [0; 86400; 30 * 86400; 30 * 86400 + 1; 60 * 86400]) = [true; false; false; true; false].
Proof. reflexivity. Qed.

(* ---------------------------------------------------------------- C111 *)
Lemma fold_min l : match t_min l with
  | None => Forall (fun t => t = None) l
  | Some m => In (Some m) l /\ forall x, In (Some x) l -> m <= x end.
Proof.
  unfold t_min. induction l as [|[x|] r IH]; cbn [t_fold]; [constructor| |].
  - destruct (t_fold Z.min r) as [m|].
    + destruct IH as [H1 H2]. split.
      * destruct (Z.min_spec x m) as [[_ ->]|[_ ->]]; [left; reflexivity|right; exact H1].
      * intros y [H|H]; [injection H as ->; lia|]. specialize (H2 y H). lia.
    + split; [left; reflexivity|]. intros y [H|H]; [injection H as ->; lia|]. rewrite Forall_forall in IH. specialize (IH _ H). discriminate.
  - destruct (t_fold Z.min r) as [m|].
    + destruct IH as [H1 H2]. split; [right; exact H1|]. intros y [H|H]; [discriminate|apply H2, H].
    + constructor; auto.
Qed.
Lemma fold_max l : match t_max l with
  | None => Forall (fun t => t = None) l
  | Some m => In (Some m) l /\ forall x, In (Some x) l -> x <= m end.
Proof.
  unfold t_max. induction l as [|[x|] r IH]; cbn [t_fold]; [constructor| |].
  - destruct (t_fold Z.max r) as [m|].
    + destruct IH as [H1 H2]. split.
      * destruct (Z.max_spec x m) as [[_ ->]|[_ ->]]; [right; exact H1|left; reflexivity].
      * intros y [H|H]; [injection H as ->; lia|]. specialize (H2 y H). lia.
    + split; [left; reflexivity|]. intros y [H|H]; [injection H as ->; lia|]. rewrite Forall_forall in IH. specialize (IH _ H). discriminate.
  - destruct (t_fold Z.max r) as [m|].
    + destruct IH as [H1 H2]. split; [right; exact H1|]. intros y [H|H]; [discriminate|apply H2, H].
    + constructor; auto.
Qed.
(** The summary of a catalogue: counts, a range that holds every interval and is as small as that allows, and the shortest and
    longest duration, both attained. *)
Theorem C111_summary rows r s x : In r rows -> e_start (i_event r) = Some s -> i_end r = Some x ->
  let sm := summary rows in
  n_events sm = List.length rows /\ (n_strict sm <= n_events sm)%nat /\
  exists a b d1 d2, range_start sm = Some a /\ range_end sm = Some b /\ dur_min sm = Some d1 /\ dur_max sm = Some d2
  /\ a <= s /\ x <= b /\ d1 <= x - s <= d2
  /\ (exists r', In r' rows /\ e_start (i_event r') = Some a) /\ (exists r', In r' rows /\ i_end r' = Some b)
  /\ (exists r' s' x', In r' rows /\ e_start (i_event r') = Some s' /\ i_end r' = Some x' /\ d1 = x' - s')
  /\ (exists r' s' x', In r' rows /\ e_start (i_event r') = Some s' /\ i_end r' = Some x' /\ d2 = x' - s').
Proof.
  intros Hr Hs Hx sm. unfold sm, summary. cbn [n_events n_strict range_start range_end dur_min dur_max].
  split; [reflexivity|]. split.
  { unfold strict_intervals. clear. induction rows as [|a l IH]; cbn; [lia|]. destruct (negb _); cbn; lia. }
  set (L1 := map (fun r => e_start (i_event r)) rows). set (L2 := map i_end rows).
  set (D := map (fun r => t_sub (i_end r) (e_start (i_event r))) rows).
  assert (I1 : In (Some s) L1) by (apply in_map_iff; exists r; auto).
  assert (I2 : In (Some x) L2) by (apply in_map_iff; exists r; auto).
  assert (I3 : In (Some (x - s)) D) by (apply in_map_iff; exists r; rewrite Hs, Hx; auto).
  assert (HD : forall d, In (Some d) D -> exists r' s' x', In r' rows /\ e_start (i_event r') = Some s' /\ i_end r' = Some x' /\ d = x' - s').
  { intros d Hd. apply in_map_iff in Hd. destruct Hd as [r' [H1 H2]]. destruct (i_end r') as [x'|] eqn:Ex; [|discriminate].
    destruct (e_start (i_event r')) as [s'|] eqn:Es; [|discriminate]. cbn in H1. injection H1 as <-. exists r', s', x'. auto. }
  pose proof (fold_min L1) as F1. pose proof (fold_max L2) as F2. pose proof (fold_min D) as F3. pose proof (fold_max D) as F4.
  destruct (t_min L1) as [a|]; [|rewrite Forall_forall in F1; specialize (F1 _ I1); discriminate].
  destruct (t_max L2) as [b|]; [|rewrite Forall_forall in F2; specialize (F2 _ I2); discriminate].
  destruct (t_min D) as [d1|]; [|rewrite Forall_forall in F3; specialize (F3 _ I3); discriminate].
  destruct (t_max D) as [d2|]; [|rewrite Forall_forall in F4; specialize (F4 _ I3); discriminate].
  destruct F1 as [A1 A2], F2 as [B1 B2], F3 as [M1 M2], F4 as [N1 N2].
  exists a, b, d1, d2. repeat split; auto.
  - apply in_map_iff in A1. destruct A1 as [r' [E Hi]]. exists r'. auto.
  - apply in_map_iff in B1. destruct B1 as [r' [E Hi]]. exists r'. auto.
Qed.
Example C111_case : let sm := summary (prepare_intervals true
   [mkE "a" (Some "Wind"%string) (Some 0) (Some 10) (Some 100); mkE "b" (Some "Wind"%string) (Some 5) (Some 10) None]) in
  (n_events sm, n_strict sm, range_start sm, range_end sm, dur_min sm, dur_max sm) = (2%nat, 1%nat, Some 0, Some 86410, Some 100, Some 86405).
Proof. reflexivity. Qed.
