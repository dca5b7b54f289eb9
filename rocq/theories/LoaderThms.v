(** C60, C109: the dated cache of downloaded solar-activity data. *)
From Coq Require Import List String Ascii Bool Arith ZArith Lia.
From Verif Require Import Py PyStr Loader.
Import ListNotations.
Open Scope list_scope.
Open Scope string_scope.

(* ---------------------------------------------------------------- specification *)
(** A day as the eight digits YYYYMMDD of a real calendar date. *)
Definition all_digits (s : string) : Prop := forall n c, String.get n s = Some c -> is_digit c = true.
Definition day (s : string) : Prop := String.length s = 8 /\ all_digits s /\ valid_date s = true.
Definition before (a b : string) : Prop := (date_num a < date_num b)%Z.
(** The directory that holds the cache has no eight digits in a row in its own path. *)
Definition plain (root : string) : Prop := findall 0 root = [].
(** Exactly the files of day [d], all complete or all as [c] says. *)
Definition only (src : source) (cache : dir) (d : string) (c : content) : Prop :=
  forall f x, In (f, x) cache <-> (x = c /\ (f = d ++ ".csv" \/ (src = LISIRD /\ f = d ++ ".json"))).

(* ---------------------------------------------------------------- strings of digits *)
Lemma get_0 c s : String.get 0 (String c s) = Some c. Proof. reflexivity. Qed.
Lemma all_digits_cons c s : all_digits (String c s) <-> is_digit c = true /\ all_digits s.
Proof.
  split.
  - intros H. split; [apply (H 0); reflexivity|]. intros n x Hn. apply (H (S n)). exact Hn.
  - intros [Hc Hs] [|n] x Hn; cbn in Hn; [injection Hn as <-; exact Hc|apply (Hs n x Hn)].
Qed.
Lemma day_shape s : String.length s = 8 -> all_digits s -> exists a b c d e f g h,
  s = String a (String b (String c (String d (String e (String f (String g (String h "")))))))
  /\ is_digit a = true /\ is_digit b = true /\ is_digit c = true /\ is_digit d = true
  /\ is_digit e = true /\ is_digit f = true /\ is_digit g = true /\ is_digit h = true.
Proof.
  intros Hl Hd.
  destruct s as [|a [|b [|c [|d [|e [|f [|g [|h [|]]]]]]]]]; try discriminate.
  exists a, b, c, d, e, f, g, h. split; [reflexivity|].
  repeat match goal with H : all_digits (String _ _) |- _ => apply all_digits_cons in H; destruct H as [? H] end.
  repeat split; assumption.
Qed.
Lemma digits_len n s d : digits n s = Some d -> n <= String.length s.
Proof.
  revert s d; induction n as [|n IH]; intros s d; [lia|]. destruct s as [|c r]; cbn; [discriminate|].
  destruct (is_digit c); [|discriminate]. destruct (digits n r) eqn:E; [|discriminate].
  intros _. specialize (IH _ _ E). lia.
Qed.
Lemma digits_stop n a c b : is_digit c = false -> digits n (a ++ String c b) = digits n a.
Proof.
  intros Hc. revert a; induction n as [|n IH]; intros a; [reflexivity|].
  destruct a as [|x a]; cbn; [rewrite Hc; reflexivity|]. destruct (is_digit x); [|reflexivity]. rewrite IH. reflexivity.
Qed.
Lemma findall_0 x r : findall 0 (String x r) = match digits 8 (String x r) with Some d => d :: findall 7 r | None => findall 0 r end.
Proof. reflexivity. Qed.
Lemma findall_split a : forall k c b, is_digit c = false -> k <= String.length a ->
  findall k (a ++ String c b) = (findall k a ++ findall 0 b)%list.
Proof.
  induction a as [|x a IH]; intros k c b Hc Hk.
  - cbn in Hk. assert (k = 0) by lia; subst. change ("" ++ String c b) with (String c b).
    rewrite findall_0. cbn [digits]. rewrite Hc. reflexivity.
  - change (String x a ++ String c b) with (String x (a ++ String c b)).
    destruct k as [|k].
    + rewrite !findall_0. change (String x (a ++ String c b)) with (String x a ++ String c b). rewrite digits_stop by exact Hc.
      destruct (digits 8 (String x a)) as [d|] eqn:E.
      * apply digits_len in E. cbn in E. rewrite IH; [reflexivity|exact Hc|lia].
      * apply IH; [exact Hc|lia].
    + cbn [findall]. apply IH; [exact Hc|cbn in Hk; lia].
Qed.
Lemma findall_day d : String.length d = 8 -> all_digits d -> findall 0 d = [d].
Proof.
  intros Hl Hd. destruct (day_shape d Hl Hd) as (a & b & c & e & f & g & h & i & -> & H1 & H2 & H3 & H4 & H5 & H6 & H7 & H8).
  rewrite findall_0. cbn [digits option_map]. rewrite H1, H2, H3, H4, H5, H6, H7, H8. reflexivity.
Qed.
Lemma findall_path root d : plain root -> day d -> findall 0 (root ++ "/" ++ d ++ ".csv") = [d].
Proof.
  intros Hr (Hl & Hd & _). change ("/" ++ d ++ ".csv") with (String "/" (d ++ String "." "csv")).
  rewrite findall_split; [|reflexivity|lia]. rewrite Hr. cbn [app].
  rewrite findall_split; [|reflexivity|lia]. rewrite findall_day by assumption. reflexivity.
Qed.

Lemma digit_range c : is_digit c = true -> (0 <= Z.of_nat (nat_of_ascii c) - 48 <= 9)%Z.
Proof.
  unfold is_digit. intros H. cbv zeta in H. apply andb_true_iff in H. destruct H as [H1 H2].
  apply Nat.leb_le in H1. apply Nat.leb_le in H2. lia.
Qed.
Lemma number_bounds s : forall a, all_digits s ->
  (a * 10 ^ Z.of_nat (String.length s) <= number a s < (a + 1) * 10 ^ Z.of_nat (String.length s))%Z.
Proof.
  induction s as [|c r IH]; intros a Hd; [cbn; lia|].
  apply all_digits_cons in Hd. destruct Hd as [Hc Hd]. pose proof (digit_range c Hc) as Hx.
  cbn [number String.length]. rewrite Nat2Z.inj_succ, Z.pow_succ_r by lia.
  set (v := (Z.of_nat (nat_of_ascii c) - 48)%Z) in *.
  specialize (IH (a * 10 + v)%Z Hd).
  assert (Hp : (0 < 10 ^ Z.of_nat (String.length r))%Z) by (apply Z.pow_pos_nonneg; lia). nia.
Qed.
Lemma number_inj s : forall s' a a', all_digits s -> all_digits s' -> String.length s = String.length s' ->
  number a s = number a' s' -> a = a' /\ s = s'.
Proof.
  induction s as [|c r IH]; intros s' a a' Hd Hd' Hl Hn; destruct s' as [|c' r']; try discriminate; [cbn in Hn; auto|].
  apply all_digits_cons in Hd. destruct Hd as [Hc Hd]. apply all_digits_cons in Hd'. destruct Hd' as [Hc' Hd'].
  cbn in Hl. cbn [number] in Hn.
  destruct (IH r' _ _ Hd Hd' ltac:(lia) Hn) as [He ->].
  pose proof (digit_range c Hc). pose proof (digit_range c' Hc').
  assert (a = a') by lia. subst a'. split; [reflexivity|]. f_equal.
  assert (Hq : nat_of_ascii c = nat_of_ascii c') by lia.
  rewrite <- (ascii_nat_embedding c), <- (ascii_nat_embedding c'), Hq. reflexivity.
Qed.
Lemma day_inj a b : day a -> day b -> date_num a = date_num b -> a = b.
Proof. intros (Hl & Hd & _) (Hl' & Hd' & _) H. apply (number_inj a b 0 0 Hd Hd'); [lia|exact H]. Qed.
(** Days are totally ordered. *)
Lemma day_trichotomy a b : day a -> day b -> before a b \/ a = b \/ before b a.
Proof.
  intros Ha Hb. unfold before. destruct (Z.lt_trichotomy (date_num a) (date_num b)) as [H|[H|H]]; auto.
  right; left. apply day_inj; assumption.
Qed.

(* ---------------------------------------------------------------- names *)
Lemma app_inj_r a b s : a ++ s = b ++ s -> a = b.
Proof.
  revert b; induction a as [|x a IH]; intros [|y b] H; cbn in H.
  - reflexivity.
  - exfalso. assert (Hl : String.length s = String.length (String y (b ++ s))) by (rewrite <- H; reflexivity).
    cbn in Hl. clear H. assert (String.length s <= String.length (b ++ s)); [|lia].
    clear Hl. induction b; cbn; lia.
  - exfalso. assert (Hl : String.length (String x (a ++ s)) = String.length s) by (rewrite H; reflexivity).
    cbn in Hl. clear H IH. assert (String.length s <= String.length (a ++ s)); [|lia].
    clear Hl. induction a; cbn; lia.
  - injection H as -> H. f_equal. apply IH, H.
Qed.
Lemma ends_refl s : ends_with s s = true.
Proof. destruct s; cbn; rewrite ?Ascii.eqb_refl, ?String.eqb_refl; reflexivity. Qed.
Lemma ends_app a s : ends_with s (a ++ s) = true.
Proof. induction a as [|x a IH]; [apply ends_refl|]. cbn [ends_with append]. rewrite IH. apply orb_true_r. Qed.
Fixpoint last_char (s : string) : option ascii :=
  match s with EmptyString => None | String c r => match last_char r with Some x => Some x | None => Some c end end.
Lemma last_char_none s : last_char s = None -> s = EmptyString.
Proof. destruct s as [|c r]; cbn; [reflexivity|]. destruct (last_char r); discriminate. Qed.
Lemma ends_last suf s : suf <> EmptyString -> ends_with suf s = true -> last_char s = last_char suf.
Proof.
  intros Hn. induction s as [|c r IH]; intros H.
  - cbn in H. rewrite orb_false_r in H. apply String.eqb_eq in H. now subst.
  - cbn [ends_with] in H. apply orb_true_iff in H as [H|H].
    + apply String.eqb_eq in H. now subst.
    + specialize (IH H). cbn [last_char]. rewrite IH. destruct (last_char suf) eqn:E; [reflexivity|].
      apply last_char_none in E. contradiction.
Qed.
Lemma last_app a c r : last_char (a ++ String c r) = last_char (String c r).
Proof.
  induction a as [|x a IH]; [reflexivity|]. cbn [append]. change (last_char (String x (a ++ String c r))) with
    (match last_char (a ++ String c r) with Some x => Some x | None => Some x end).
  rewrite IH. cbn [last_char]. destruct (last_char r); reflexivity.
Qed.
Lemma json_not_csv d : day d -> ends_with ".csv" (d ++ ".json") = false.
Proof.
  intros _. destruct (ends_with ".csv" (d ++ ".json")) eqn:E; [|reflexivity].
  apply ends_last in E; [|discriminate]. rewrite last_app in E. cbn in E. discriminate.
Qed.
Lemma csv_ne_json a b : day a -> day b -> a ++ ".csv" <> b ++ ".json".
Proof. intros Ha Hb H. pose proof (json_not_csv b Hb) as Hj. rewrite <- H, ends_app in Hj. discriminate. Qed.

(* ---------------------------------------------------------------- directories *)
Lemma in_unlink d g f x : In (f, x) (unlink d g) <-> In (f, x) d /\ f <> g.
Proof.
  unfold unlink. rewrite filter_In. cbn. rewrite negb_true_iff, String.eqb_neq. tauto.
Qed.
Lemma in_write d g c f x : In (f, x) (write d g c) <-> (f = g /\ x = c) \/ (In (f, x) d /\ f <> g).
Proof.
  unfold write. cbn [In]. rewrite in_unlink. split; intros [H|H]; auto.
  - injection H as -> ->. auto.
  - destruct H as [-> ->]. auto.
Qed.
Lemma read_only d f c : In (f, c) d -> (forall x, In (f, x) d -> x = c) -> read d f = Some c.
Proof.
  induction d as [|[g x] r IH]; cbn; [tauto|]. intros Hi Hu. destruct (String.eqb_spec g f) as [->|Hn].
  - f_equal. apply Hu. auto.
  - apply IH; [destruct Hi as [Hi|Hi]; [injection Hi as -> ->; contradiction|exact Hi]|]. intros y Hy. apply Hu. auto.
Qed.
Lemma read_none d f : (forall x, ~ In (f, x) d) -> read d f = None.
Proof.
  induction d as [|[g x] r IH]; cbn; [reflexivity|]. intros Hu. destruct (String.eqb_spec g f) as [->|Hn].
  - exfalso. apply (Hu x). auto.
  - apply IH. intros y Hy. apply (Hu y). auto.
Qed.
Lemma read_some d f c : read d f = Some c -> In (f, c) d.
Proof.
  induction d as [|[g x] r IH]; cbn; [discriminate|]. destruct (String.eqb_spec g f) as [->|Hn].
  - intros H; injection H as ->. auto.
  - auto.
Qed.
Lemma nub_In x l : In x (nub l) <-> In x l.
Proof.
  induction l as [|y r IH]; cbn; [tauto|]. destruct (mem_str y r) eqn:E.
  - rewrite IH. apply mem_str_In in E. split; [auto|]. intros [<-|H]; auto.
  - cbn. rewrite IH. tauto.
Qed.
Lemma nub_same x l : l <> [] -> (forall y, In y l -> y = x) -> nub l = [x].
Proof.
  induction l as [|y r IH]; [congruence|]. intros _ H. cbn.
  rewrite (H y) by (left; reflexivity). destruct (mem_str x r) eqn:E.
  - apply IH; [|intros z Hz; apply H; right; exact Hz]. intros ->. discriminate.
  - destruct r as [|z r]; [reflexivity|]. exfalso.
    assert (z = x) by (apply H; right; left; reflexivity). subst z.
    cbn in E. rewrite String.eqb_refl in E. discriminate.
Qed.
(** All csv files are the one of day [d]. *)
Definition stamped (cache : dir) (d : string) : Prop :=
  (exists x, In (d ++ ".csv", x) cache) /\ forall f x, In (f, x) cache -> ends_with ".csv" f = true -> f = d ++ ".csv".
Lemma ctime_stamped root cache d : plain root -> day d -> stamped cache d -> get_data_ctime root cache = Ok d.
Proof.
  intros Hr Hd [[x Hx] Hall]. unfold get_data_ctime.
  set (fl := map _ _).
  assert (Hfl : forall s, In s fl -> s = root ++ "/" ++ d ++ ".csv").
  { intros s Hs. apply in_map_iff in Hs. destruct Hs as [[f y] [<- Hs]]. apply filter_In in Hs. cbn in *.
    destruct Hs as [Hs He]. rewrite (Hall f y Hs He). reflexivity. }
  assert (Hne : In (root ++ "/" ++ d ++ ".csv") fl).
  { apply in_map_iff. exists (d ++ ".csv", x). split; [reflexivity|]. apply filter_In. split; [exact Hx|]. cbn [fst]. apply ends_app. }
  rewrite (nub_same d).
  - destruct fl as [|s l]; [destruct Hne|]. destruct Hd as (_ & _ & ->). reflexivity.
  - intros H0. assert (Hi : In d (flat_map (findall 0) fl)); [|rewrite H0 in Hi; destruct Hi].
    apply in_flat_map. eexists; split; [exact Hne|]. rewrite findall_path by assumption. left; reflexivity.
  - intros y Hy. apply in_flat_map in Hy. destruct Hy as [s [Hs Hy]]. rewrite (Hfl s Hs) in Hy.
    rewrite findall_path in Hy by assumption. destruct Hy as [<-|[]]. reflexivity.
Qed.
(** Two dated csv files: no loader can be made any more, wherever the cache is. *)
Lemma ctime_two root cache a b x y : day a -> day b -> a <> b ->
  In (a ++ ".csv", x) cache -> In (b ++ ".csv", y) cache -> get_data_ctime root cache = Err AssertionError.
Proof.
  intros Ha Hb Hab Hx Hy. unfold get_data_ctime. set (fl := map _ _).
  assert (H : forall d z, day d -> In (d ++ ".csv", z) cache -> In d (nub (flat_map (findall 0) fl)) /\ fl <> []).
  { intros d z (Hl & Hd & _) Hz.
    assert (Hin : In (root ++ "/" ++ d ++ ".csv") fl).
    { apply in_map_iff. exists (d ++ ".csv", z). split; [reflexivity|]. apply filter_In. split; [exact Hz|]. cbn [fst]. apply ends_app. }
    split; [|intros H0; rewrite H0 in Hin; destruct Hin].
    apply nub_In, in_flat_map. eexists; split; [exact Hin|].
    change ("/" ++ d ++ ".csv") with (String "/" (d ++ String "." "csv")).
    rewrite findall_split; [|reflexivity|lia]. apply in_or_app. right.
    rewrite findall_split; [|reflexivity|lia]. rewrite findall_day by assumption. left; reflexivity. }
  destruct (H a x Ha Hx) as [Ia Hne]. destruct (H b y Hb Hy) as [Ib _].
  destruct fl as [|s l]; [congruence|].
  destruct (nub (flat_map (findall 0) (s :: l))) as [|u [|v r]]; [destruct Ia| |reflexivity].
  exfalso. destruct Ia as [<-|[]]. destruct Ib as [<-|[]]. congruence.
Qed.

Ltac names := repeat match goal with
  | H : ?a ++ ?s = ?b ++ ?s |- _ => apply app_inj_r in H
  | H : ?a ++ ".csv" = ?b ++ ".json" |- _ => exfalso; revert H; apply csv_ne_json; assumption
  | H : ?b ++ ".json" = ?a ++ ".csv" |- _ => exfalso; symmetry in H; revert H; apply csv_ne_json; assumption
  end.
Lemma csv_day_file f d : day d -> f = d ++ ".json" -> ends_with ".csv" f = true -> False.
Proof. intros Hd -> H. rewrite json_not_csv in H by exact Hd. discriminate. Qed.

(** What a refresh leaves, whatever json files there were. *)
Lemma refresh_stamped src cache old new : day old -> day new -> old <> new ->
  (forall f x, In (f, x) cache -> ends_with ".csv" f = true -> f = old ++ ".csv") ->
  let d' := run_steps (download_steps src new old) cache in
  stamped d' new /\ read d' (new ++ ".csv") = Some (Data new) /\ (src = LISIRD -> read d' (new ++ ".json") = Some (Data new)).
Proof.
  intros Ho Hn Hne Hc d'. subst d'.
  assert (Hcj : new ++ ".csv" <> old ++ ".json") by (apply csv_ne_json; assumption).
  assert (Hcj' : new ++ ".csv" <> new ++ ".json") by (apply csv_ne_json; assumption).
  assert (Hcj'' : old ++ ".csv" <> new ++ ".json") by (apply csv_ne_json; assumption).
  assert (Hcc : new ++ ".csv" <> old ++ ".csv") by (intros H; apply app_inj_r in H; congruence).
  assert (Hjj : new ++ ".json" <> old ++ ".json") by (intros H; apply app_inj_r in H; congruence).
  assert (Hm : forall f x, In (f, x) (run_steps (download_steps src new old) cache) <->
     (x = Data new /\ (f = new ++ ".csv" \/ (src = LISIRD /\ f = new ++ ".json")))
     \/ (In (f, x) cache /\ f <> new ++ ".csv" /\ f <> old ++ ".csv" /\ (src = LISIRD -> f <> new ++ ".json" /\ f <> old ++ ".json"))).
  { intros f x. destruct src; unfold run_steps, download_steps; cbn [fold_left app]; rewrite ?in_unlink, ?in_write; split.
    - intros H; decompose [and or] H; clear H; subst; try congruence; auto.
      right. repeat split; auto; try congruence; try (intros H'; discriminate).
    - intros H; decompose [and or] H; clear H; subst; try congruence; auto 10.
    - intros H; decompose [and or] H; clear H; subst; try congruence; auto 10.
    - intros H; decompose [and or] H; clear H; subst; try congruence; auto 10.
      match goal with H : LISIRD = LISIRD -> _ |- _ => destruct (H eq_refl) end. tauto. }
  assert (Hrc : read (run_steps (download_steps src new old) cache) (new ++ ".csv") = Some (Data new)).
  { apply read_only; [apply Hm; left; auto|]. intros x Hx. apply Hm in Hx. destruct Hx as [[Hx _]|Hx]; [exact Hx|]. tauto. }
  split; [split|split].
  - exists (Data new). apply Hm. left; auto.
  - intros f x Hi He. apply Hm in Hi. destruct Hi as [[_ [Hi|[_ Hi]]]|(Hi & _ & Hi' & _)]; [exact Hi| |].
    + exfalso. revert Hi He. apply csv_day_file, Hn.
    + exfalso. apply Hi'. apply (Hc f x Hi He).
  - exact Hrc.
  - intros ->. apply read_only; [apply Hm; left; auto|]. intros x Hx. apply Hm in Hx. destruct Hx as [[Hx _]|Hx]; [exact Hx|].
    destruct Hx as (_ & _ & _ & Hx). destruct (Hx eq_refl). congruence.
Qed.
Lemma refresh_only src cache old c new : day old -> day new -> old <> new -> (only src cache old c \/ cache = []) ->
  only src (run_steps (download_steps src new old) cache) new (Data new).
Proof.
  intros Ho Hn Hne Hc f x.
  assert (Hcj : new ++ ".csv" <> old ++ ".json") by (apply csv_ne_json; assumption).
  assert (Hcj' : new ++ ".csv" <> new ++ ".json") by (apply csv_ne_json; assumption).
  assert (Hcj'' : old ++ ".csv" <> new ++ ".json") by (apply csv_ne_json; assumption).
  assert (Hcc : new ++ ".csv" <> old ++ ".csv") by (intros H; apply app_inj_r in H; congruence).
  assert (Hjj : new ++ ".json" <> old ++ ".json") by (intros H; apply app_inj_r in H; congruence).
  assert (Hc' : In (f, x) cache -> x = c /\ (f = old ++ ".csv" \/ (src = LISIRD /\ f = old ++ ".json"))).
  { intros Hi. destruct Hc as [Hc| ->]; [apply Hc, Hi|destruct Hi]. }
  destruct src; unfold run_steps, download_steps; cbn [fold_left app]; rewrite ?in_unlink, ?in_write; split.
  - intros H; decompose [and or] H; clear H; subst; try congruence; auto.
    destruct (Hc' H0) as [_ [?|[? _]]]; congruence.
  - intros H; decompose [and or] H; clear H; subst; try congruence; auto 10.
  - intros H; decompose [and or] H; clear H; subst; try congruence; auto 10.
    match goal with H : In _ cache |- _ => destruct (Hc' H) as [_ [?|[_ ?]]]; congruence end.
  - intros H; decompose [and or] H; clear H; subst; try congruence; auto 10.
Qed.
Lemma only_stamped src cache d c : day d -> only src cache d c -> stamped cache d.
Proof.
  intros Hd H. split; [exists c; apply H; auto|]. intros f x Hi He. apply H in Hi. destruct Hi as [_ [Hi|[_ Hi]]]; [exact Hi|].
  exfalso. revert Hi He. apply csv_day_file, Hd.
Qed.
Lemma only_read src cache d c : day d -> only src cache d c -> read cache (d ++ ".csv") = Some c /\ (src = LISIRD -> read cache (d ++ ".json") = Some c).
Proof.
  intros Hd H. split.
  - apply read_only; [apply H; auto|]. intros x Hx. apply H in Hx. tauto.
  - intros ->. apply read_only; [apply H; auto|]. intros x Hx. apply H in Hx. tauto.
Qed.
Lemma epoch_day : day epoch_date.
Proof.
  split; [reflexivity|split; [|reflexivity]].
  intros n c. do 8 (destruct n as [|n]; [cbn; intros H; injection H as <-; reflexivity|]). destruct n; discriminate.
Qed.

Lemma session_stale src root cache old t1 t2 : plain root -> day old -> day t1 -> stamped cache old -> before old t1 ->
  session src root t1 t2 cache = load_data src (mkL root old) t1 t2 cache
  /\ maybe_update src (mkL root old) t1 cache = run_steps (download_steps src t1 old) cache.
Proof.
  intros Hr Ho Ht Hs Hb. unfold session, new_loader. rewrite (ctime_stamped root cache old Hr Ho Hs). split; [reflexivity|].
  unfold maybe_update, stale. cbn [l_ctime]. apply Z.ltb_lt in Hb. rewrite Hb. reflexivity.
Qed.
Lemma before_ne a b : before a b -> a <> b.
Proof. intros H ->. unfold before in H. lia. Qed.

(* ---------------------------------------------------------------- C60 *)
(** A cache of an earlier day (or none) is refreshed: the data returned are the ones downloaded today, and today's files are
    the only ones left. A cache of today is used as it is: nothing is downloaded and the directory does not change. *)
Theorem C60_stale_cache_refreshed src root old c cache today :
  plain root -> day old -> day today -> before old today -> only src cache old c ->
  exists cache', session src root today today cache = (cache', Ok (Data today)) /\ only src cache' today (Data today).
Proof.
  intros Hr Ho Ht Hb Hc. pose proof (before_ne _ _ Hb) as Hne.
  destruct (session_stale src root cache old today today Hr Ho Ht (only_stamped _ _ _ _ Ho Hc) Hb) as [-> Hm].
  unfold load_data. rewrite Hm.
  pose proof (refresh_only src cache old c today Ho Ht Hne (or_introl Hc)) as Hn.
  destruct (only_read _ _ _ _ Ht Hn) as [R1 R2].
  eexists. split; [|exact Hn]. rewrite R1. destruct src; [reflexivity|]. rewrite (R2 eq_refl). reflexivity.
Qed.
Theorem C60_first_use_downloads src root today :
  day today -> before epoch_date today ->
  exists cache', session src root today today [] = (cache', Ok (Data today)) /\ only src cache' today (Data today).
Proof.
  intros Ht Hb. pose proof (before_ne _ _ Hb) as Hne.
  unfold session, new_loader, load_data, maybe_update, stale. cbn [get_data_ctime filter map rmap l_ctime l_root].
  unfold before in Hb. apply Z.ltb_lt in Hb. rewrite Hb.
  pose proof (refresh_only src [] epoch_date Torn today epoch_day Ht Hne (or_intror eq_refl)) as Hn.
  destruct (only_read _ _ _ _ Ht Hn) as [R1 R2].
  eexists. split; [|exact Hn]. rewrite R1. destruct src; [reflexivity|]. rewrite (R2 eq_refl). reflexivity.
Qed.
Theorem C60_fresh_cache_reused src root today c cache :
  plain root -> day today -> only src cache today c ->
  session src root today today cache = (cache, Ok c).
Proof.
  intros Hr Ht Hc. unfold session, new_loader. rewrite (ctime_stamped root cache today Hr Ht (only_stamped _ _ _ _ Ht Hc)).
  cbn [rmap]. unfold load_data, maybe_update, stale. cbn [l_ctime]. rewrite Z.ltb_irrefl.
  destruct (only_read _ _ _ _ Ht Hc) as [R1 R2]. rewrite R1. destruct src; [reflexivity|]. rewrite (R2 eq_refl). reflexivity.
Qed.
(** Over every history of uses on days that do not go backwards, each use gets the data of its own day. *)
Fixpoint uses (src : source) (root : string) (cache : dir) (days : list string) : list (result content) :=
  match days with
  | [] => []
  | t :: r => let (cache', x) := session src root t t cache in x :: uses src root cache' r
  end.
Fixpoint forwards (days : list string) : Prop :=
  match days with a :: (b :: _) as r => (a = b \/ before a b) /\ forwards r | _ => True end.
Lemma uses_only src root : plain root -> forall days cache d, day d -> Forall day days -> forwards (d :: days) -> only src cache d (Data d) ->
  uses src root cache days = map (fun t => Ok (Data t)) days.
Proof.
  intros Hr. induction days as [|t days IH]; intros cache d Hd Hdays Hf Hc; [reflexivity|].
  inversion Hdays as [|? ? Ht Hdays']; subst. destruct Hf as [Hdt Hf]. cbn [uses map].
  destruct Hdt as [<-|Hb].
  - rewrite (C60_fresh_cache_reused src root d (Data d) cache Hr Hd Hc). f_equal. exact (IH cache d Hd Hdays' Hf Hc).
  - destruct (C60_stale_cache_refreshed src root d (Data d) cache t Hr Hd Ht Hb Hc) as (cache' & -> & Hc'). f_equal.
    exact (IH cache' t Ht Hdays' Hf Hc').
Qed.
Theorem C60_every_history src root days :
  plain root -> Forall day days -> forwards days -> (forall t, In t days -> before epoch_date t) ->
  uses src root [] days = map (fun t => Ok (Data t)) days.
Proof.
  intros Hr Hd Hf He. destruct days as [|t days]; [reflexivity|]. cbn [uses map].
  inversion Hd as [|? ? Ht Hd']; subst.
  destruct (C60_first_use_downloads src root t Ht (He t (or_introl eq_refl))) as (cache' & -> & Hc). f_equal.
  exact (uses_only src root Hr days cache' t Ht Hd' Hf Hc).
Qed.
(** Files of two different days are rejected. *)
Theorem C60_two_days_rejected src root t1 t2 cache a b x y :
  day a -> day b -> a <> b -> In (a ++ ".csv", x) cache -> In (b ++ ".csv", y) cache ->
  session src root t1 t2 cache = (cache, Err AssertionError).
Proof.
  intros Ha Hb Hne Hx Hy. unfold session, new_loader. rewrite (ctime_two root cache a b x y Ha Hb Hne Hx Hy). reflexivity.
Qed.
(** Not under every circumstance does a valid cache give data: a cache dated after the clock is used but not found; *)
Theorem C60_clock_behind_refuted src root d c cache today :
  plain root -> day d -> day today -> before today d -> only src cache d c ->
  session src root today today cache = (cache, Err FileNotFoundError).
Proof.
  intros Hr Hd Ht Hb Hc. unfold session, new_loader. rewrite (ctime_stamped root cache d Hr Hd (only_stamped _ _ _ _ Hd Hc)).
  cbn [rmap]. unfold load_data, maybe_update, stale. cbn [l_ctime].
  replace (date_num d <? date_num today)%Z with false by (symmetry; apply Z.ltb_ge; unfold before in Hb; lia).
  rewrite read_none; [reflexivity|]. intros x Hx. apply Hc in Hx. destruct Hx as [_ [H|[_ H]]].
  - apply app_inj_r in H. apply (before_ne _ _ Hb). congruence.
  - revert H. apply csv_ne_json; assumption.
Qed.
(** midnight between the check and the reading; *)
Theorem C60_midnight_refuted src root old c cache t1 t2 :
  plain root -> day old -> day t1 -> day t2 -> before old t1 -> before t1 t2 -> only src cache old c ->
  exists cache', session src root t1 t2 cache = (cache', Err FileNotFoundError).
Proof.
  intros Hr Ho H1 H2 Hb Hb' Hc.
  destruct (session_stale src root cache old t1 t2 Hr Ho H1 (only_stamped _ _ _ _ Ho Hc) Hb) as [-> Hm].
  unfold load_data. rewrite Hm.
  pose proof (refresh_only src cache old c t1 Ho H1 (before_ne _ _ Hb) (or_introl Hc)) as Hn.
  eexists. rewrite read_none; [reflexivity|]. intros x Hx. apply Hn in Hx. destruct Hx as [_ [H|[_ H]]].
  - apply app_inj_r in H. apply (before_ne _ _ Hb'). congruence.
  - revert H. apply csv_ne_json; assumption.
Qed.
(** a loader object used again on later days removes the wrong file and leaves two: no loader can be made after that; *)
Theorem C60_reused_loader_refuted src root old c cache t1 t2 :
  plain root -> day old -> day t1 -> day t2 -> before old t1 -> before t1 t2 -> only src cache old c ->
  forall l, new_loader root cache = Ok l ->
  let c1 := fst (load_data src l t1 t1 cache) in
  let c2 := fst (load_data src l t2 t2 c1) in
  forall t, session src root t t c2 = (c2, Err AssertionError).
Proof.
  intros Hr Ho H1 H2 Hb Hb' Hc l Hl c1 c2 t.
  assert (Hl' : l = mkL root old).
  { unfold new_loader in Hl. rewrite (ctime_stamped root cache old Hr Ho (only_stamped _ _ _ _ Ho Hc)) in Hl. cbn in Hl. congruence. }
  subst l. clear Hl.
  assert (E1 : c1 = run_steps (download_steps src t1 old) cache).
  { subst c1. unfold load_data, maybe_update, stale. cbn [fst l_ctime]. pose proof (proj2 (Z.ltb_lt _ _) Hb) as ->. reflexivity. }
  pose proof (refresh_only src cache old c t1 Ho H1 (before_ne _ _ Hb) (or_introl Hc)) as Hn. rewrite <- E1 in Hn.
  assert (Hb2 : before old t2) by (unfold before in *; lia).
  assert (E2 : c2 = run_steps (download_steps src t2 old) c1).
  { subst c2. unfold load_data, maybe_update, stale. cbn [fst l_ctime]. pose proof (proj2 (Z.ltb_lt _ _) Hb2) as ->. reflexivity. }
  pose proof (before_ne _ _ Hb) as N1. pose proof (before_ne _ _ Hb') as N2. pose proof (before_ne _ _ Hb2) as N3.
  apply (C60_two_days_rejected src root t t c2 t1 t2 (Data t1) (Data t2) H1 H2 N2).
  - assert (Hi : In (t1 ++ ".csv", Data t1) c1) by (apply Hn; auto). rewrite E2.
    assert (t1 ++ ".csv" <> t2 ++ ".csv") by (intros H; apply app_inj_r in H; congruence).
    assert (t1 ++ ".csv" <> old ++ ".csv") by (intros H0; apply app_inj_r in H0; congruence).
    assert (t1 ++ ".csv" <> t2 ++ ".json") by (apply csv_ne_json; assumption).
    assert (t1 ++ ".csv" <> old ++ ".json") by (apply csv_ne_json; assumption).
    destruct src; unfold run_steps, download_steps; cbn [fold_left app]; rewrite ?in_unlink, ?in_write; auto 20.
  - rewrite E2.
    assert (t2 ++ ".csv" <> old ++ ".csv") by (intros H0; apply app_inj_r in H0; congruence).
    assert (t2 ++ ".csv" <> t2 ++ ".json") by (apply csv_ne_json; assumption).
    assert (t2 ++ ".csv" <> old ++ ".json") by (apply csv_ne_json; assumption).
    destruct src; unfold run_steps, download_steps; cbn [fold_left app]; rewrite ?in_unlink, ?in_write; auto 20.
Qed.
(** and a home directory whose name has eight digits makes every existing cache look like one of two days. *)
Theorem C60_digits_in_home_refuted :
  exists root, (exists cache', session SIDC root "20240102" "20240102" [] = (cache', Ok (Data "20240102"))
                            /\ session SIDC root "20240102" "20240102" cache' = (cache', Err AssertionError)).
Proof. exists "/home/user12345678/solarwindpy/data/sidc/m13". eexists. split; reflexivity. Qed.
Example C60_case :
  plain "/home/me/solarwindpy/data/sidc/m13" /\
  uses LISIRD "/home/me/solarwindpy/data/lisird" [] ["20231231"; "20240101"; "20240101"; "20240229"]
    = [Ok (Data "20231231"); Ok (Data "20240101"); Ok (Data "20240101"); Ok (Data "20240229")].
Proof. split; reflexivity. Qed.

(* ---------------------------------------------------------------- C109 *)
Definition csv_removed (src : source) : nat := match src with SIDC => 3 | LISIRD => 5 end.
(** Died before the first operation or after the old csv was removed, or during the very first download: the next day's use
    succeeds with that day's data. *)
Theorem C109_recovers_next_day_partial src root old c cache today k later :
  plain root -> day old -> day today -> day later -> before old today -> before today later ->
  (only src cache old c /\ (k = 0 \/ csv_removed src <= k)) \/ (cache = [] /\ old = epoch_date) ->
  exists cache', session src root later later (crashed src root today k cache) = (cache', Ok (Data later)) /\ stamped cache' later.
Proof.
  intros Hr Ho Ht Hl Hb Hb' Hc.
  assert (Hbl : before old later) by (unfold before in *; lia).
  assert (Hgo : forall d0 ca, day d0 -> stamped ca d0 -> before d0 later ->
            exists cache', session src root later later ca = (cache', Ok (Data later)) /\ stamped cache' later).
  { intros d0 ca Hd0 Hs Hbb. destruct (session_stale src root ca d0 later later Hr Hd0 Hl Hs Hbb) as [-> Hm].
    unfold load_data. rewrite Hm.
    destruct (refresh_stamped src ca d0 later Hd0 Hl (before_ne _ _ Hbb) (proj2 Hs)) as (S1 & R1 & R2).
    eexists. split; [|exact S1]. rewrite R1. destruct src; [reflexivity|]. rewrite (R2 eq_refl). reflexivity. }
  assert (Hct : get_data_ctime root cache = Ok old).
  { destruct Hc as [[Hc _]|[-> ->]]; [|reflexivity]. apply ctime_stamped; [assumption..|]. eapply only_stamped; eassumption. }
  assert (Hcr : crashed src root today k cache = run_steps (firstn k (download_steps src today old)) cache).
  { unfold crashed, new_loader. rewrite Hct. cbn [rmap]. unfold stale. cbn [l_ctime]. pose proof (proj2 (Z.ltb_lt _ _) Hb) as ->. reflexivity. }
  rewrite Hcr. clear Hcr.
  assert (Hj : forall a b, day a -> day b -> a ++ ".csv" <> b ++ ".json") by (intros; apply csv_ne_json; assumption).
  pose proof (before_ne _ _ Hb) as Hne.
  assert (Hcc : today ++ ".csv" <> old ++ ".csv") by (intros H; apply app_inj_r in H; congruence).
  pose proof (Hj today today Ht Ht) as J1. pose proof (Hj today old Ht Ho) as J2. pose proof (Hj old today Ho Ht) as J3.
  destruct Hc as [[Hc [->|Hk]]|[-> ->]].
  - cbn [firstn run_steps fold_left]. apply (Hgo old); [assumption| |assumption]. eapply only_stamped; eassumption.
  - apply (Hgo today); [assumption| |assumption].
    assert (Hin : forall f x, In (f, x) cache -> ends_with ".csv" f = true -> f = old ++ ".csv") by (apply (only_stamped _ _ _ _ Ho Hc)).
    destruct src; cbn [csv_removed] in Hk.
    + rewrite firstn_all2 by (cbn; lia). apply (refresh_stamped SIDC cache old today Ho Ht Hne Hin).
    + destruct (Nat.eq_dec k 5) as [->|Hk5].
      * unfold run_steps, download_steps. cbn [firstn app fold_left]. split.
        -- exists (Data today). rewrite in_unlink, !in_write. auto 20.
        -- intros f x Hi He. rewrite in_unlink, !in_write in Hi. decompose [and or] Hi; clear Hi; subst; auto;
             try (exfalso; rewrite json_not_csv in He by assumption; discriminate).
           exfalso. match goal with H : In (f, x) cache |- _ => specialize (Hin f x H He); congruence end.
      * rewrite firstn_all2 by (cbn; lia). apply (refresh_stamped LISIRD cache old today Ho Ht Hne Hin).
  - assert (Hsd : (k = 0 /\ run_steps (firstn k (download_steps src today epoch_date)) [] = []) \/
                  stamped (run_steps (firstn k (download_steps src today epoch_date)) []) today).
    { destruct k as [|k]; [left; split; reflexivity|right].
      assert (Hfin : forall kk, kk >= 1 -> let dd := run_steps (firstn kk (download_steps src today epoch_date)) [] in
         (exists x, In (today ++ ".csv", x) dd) /\ forall f x, In (f, x) dd -> f = today ++ ".csv" \/ f = today ++ ".json").
      { intros kk Hkk. destruct src.
        - destruct kk as [|[|[|kk]]]; [lia| | |]; cbn [firstn download_steps app]; rewrite ?firstn_nil;
            unfold run_steps; cbn [fold_left]; (split;
            [eexists; rewrite ?in_unlink, ?in_write; auto 20|intros f x Hi; rewrite ?in_unlink, ?in_write in Hi; cbn [In] in Hi; decompose [and or] Hi; auto; contradiction]).
        - destruct kk as [|[|[|[|[|[|kk]]]]]]; [lia| | | | | |]; cbn [firstn download_steps app]; rewrite ?firstn_nil;
            [| | | | |destruct kk; cbn [firstn]; rewrite ?firstn_nil]; unfold run_steps; cbn [fold_left];
            (split;
            [eexists; rewrite ?in_unlink, ?in_write; auto 30|intros f x Hi; rewrite ?in_unlink, ?in_write in Hi; cbn [In] in Hi; decompose [and or] Hi; auto; contradiction]). }
      destruct (Hfin (S k) ltac:(lia)) as [F1 F2]. split; [exact F1|]. intros f x Hi He. destruct (F2 f x Hi) as [->| ->]; [reflexivity|].
      exfalso. rewrite json_not_csv in He by assumption. discriminate. }
    destruct Hsd as [[-> Hsd]|Hsd].
    + rewrite Hsd. destruct (C60_first_use_downloads src root later Hl Hbl) as (ca & E & Hon). exists ca. split; [exact E|].
      eapply only_stamped; eassumption.
    + apply (Hgo today); assumption.
Qed.
(** Died between creating the new csv and removing the old one: from then on, every use on every day is an AssertionError and the
    directory never changes again. *)
Theorem C109_crash_while_replacing_refuted src root old c cache today k :
  plain root -> day old -> day today -> before old today -> only src cache old c -> 1 <= k < csv_removed src ->
  let after := crashed src root today k cache in
  forall days, uses src root after days = map (fun _ => Err AssertionError) days.
Proof.
  intros Hr Ho Ht Hb Hc Hk after.
  assert (Hs : forall t, session src root t t after = (after, Err AssertionError)).
  { intros t.
    assert (E : after = run_steps (firstn k (download_steps src today old)) cache).
    { unfold after, crashed, new_loader. rewrite (ctime_stamped root cache old Hr Ho (only_stamped _ _ _ _ Ho Hc)). cbn [rmap].
      unfold stale. cbn [l_ctime]. pose proof (proj2 (Z.ltb_lt _ _) Hb) as ->. reflexivity. }
    assert (I : In (old ++ ".csv", c) cache) by (apply Hc; auto).
    pose proof (before_ne _ _ Hb) as Hne.
    assert (N1 : old ++ ".csv" <> today ++ ".csv") by (intros H; apply app_inj_r in H; congruence).
    assert (N2 : old ++ ".csv" <> today ++ ".json") by (apply csv_ne_json; assumption).
    assert (N3 : today ++ ".csv" <> today ++ ".json") by (apply csv_ne_json; assumption).
    assert (Hin : In (old ++ ".csv", c) after /\ exists y, In (today ++ ".csv", y) after).
    { rewrite E. destruct src; cbn [csv_removed] in Hk.
      - destruct k as [|[|[|k]]]; [lia| | |lia]; unfold run_steps; cbn [firstn download_steps app fold_left];
          (split; [|eexists]; rewrite ?in_write; auto 20).
      - destruct k as [|[|[|[|[|k]]]]]; [lia| | | | |lia]; unfold run_steps; cbn [firstn download_steps app fold_left];
          (split; [|eexists]; rewrite ?in_write; auto 20). }
    destruct Hin as [I1 [y I2]]. eapply C60_two_days_rejected; [exact Ho|exact Ht|exact Hne|exact I1|exact I2]. }
  induction days as [|t r IH]; [reflexivity|]. cbn [uses map]. rewrite Hs. f_equal. exact IH.
Qed.
(** Died while writing the first csv: the torn file is taken for today's data. *)
Theorem C109_torn_file_is_fresh_refuted root today : plain root -> day today -> before epoch_date today ->
  exists cache', session SIDC root today today (crashed SIDC root today 1 []) = (cache', Ok Torn).
Proof.
  intros Hr Ht Hb. unfold crashed, new_loader. cbn [get_data_ctime filter map rmap]. unfold stale. cbn [l_ctime].
  pose proof (proj2 (Z.ltb_lt _ _) Hb) as ->. unfold run_steps. cbn [firstn download_steps app fold_left].
  eexists. apply C60_fresh_cache_reused; [assumption..|]. intros f x. rewrite in_write. cbn [In].
  split; [intros [[-> ->]|[[] _]]; auto|]. intros [-> [->|[H _]]]; [auto|discriminate].
Qed.
Example C109_case : exists cache', let root := "/home/me/solarwindpy/data/sidc/m13" in
  only SIDC cache' "20240101" (Data "20240101") /\
  uses SIDC root (crashed SIDC root "20240102" 2 cache') ["20240102"; "20240103"] = [Err AssertionError; Err AssertionError] /\
  uses SIDC root (crashed SIDC root "20240102" 0 cache') ["20240102"; "20240103"] = [Ok (Data "20240102"); Ok (Data "20240103")].
Proof.
  exists [("20240101.csv", Data "20240101")]. cbv zeta. split; [|split; reflexivity].
  intros f x. cbn. split; [intros [H|[]]; injection H as <- <-; auto|]. intros [-> [->|[H _]]]; [auto|discriminate].
Qed.
