(** Sharper statements about properties proved elsewhere, found by changing the models: C26, C28 (what saving and loading refuse),
    C34 (spacecraft queries), C41, C47, C48, C65, C70, C96, C139, C146. *)
From Coq Require Import Reals List String Ascii Bool Arith ZArith Lra Lia.
From Verif Require Import Py PyStr Sort Num Species Frame FrameProofs Plasma Spacecraft Store FitCore FitCoreThms Icme IcmeThms ExtremaCalc FitPlot PlotBase OrbitsThms.
Import ListNotations.
Open Scope list_scope.

(* ------------------------------------------------------------------ C70: case-insensitive names *)
Definition uppers : string := "ABCDEFGHIJKLMNOPQRSTUVWXYZ".
Definition lowers : string := "abcdefghijklmnopqrstuvwxyz".
(** the same letter, possibly in another case *)
Definition same_letter (c d : ascii) : Prop :=
  c = d \/ exists n, (get n uppers = Some c /\ get n lowers = Some d) \/ (get n lowers = Some c /\ get n uppers = Some d).
Inductive same_letters : string -> string -> Prop :=
| sl_nil : same_letters EmptyString EmptyString
| sl_cons c d s t : same_letter c d -> same_letters s t -> same_letters (String c s) (String d t).
Definition lowered_letter (c : ascii) : ascii :=
  let fix go (u l : string) := match u, l with String a u, String b l => if Ascii.eqb c a then b else go u l | _, _ => c end in go uppers lowers.
Lemma lower_char_spec c : lower_char c = lowered_letter c.
Proof. destruct c as [[|] [|] [|] [|] [|] [|] [|] [|]]; reflexivity. Qed.
Lemma lower_char_cases c : lower_char c = c \/ exists n, get n uppers = Some c /\ get n lowers = Some (lower_char c).
Proof.
  rewrite lower_char_spec. destruct c as [[|] [|] [|] [|] [|] [|] [|] [|]]; try (left; reflexivity); right;
    first [exists 0%nat; split; reflexivity|exists 1%nat; split; reflexivity|exists 2%nat; split; reflexivity|exists 3%nat; split; reflexivity|exists 4%nat; split; reflexivity|exists 5%nat; split; reflexivity
          |exists 6%nat; split; reflexivity|exists 7%nat; split; reflexivity|exists 8%nat; split; reflexivity|exists 9%nat; split; reflexivity|exists 10%nat; split; reflexivity|exists 11%nat; split; reflexivity
          |exists 12%nat; split; reflexivity|exists 13%nat; split; reflexivity|exists 14%nat; split; reflexivity|exists 15%nat; split; reflexivity|exists 16%nat; split; reflexivity|exists 17%nat; split; reflexivity
          |exists 18%nat; split; reflexivity|exists 19%nat; split; reflexivity|exists 20%nat; split; reflexivity|exists 21%nat; split; reflexivity|exists 22%nat; split; reflexivity|exists 23%nat; split; reflexivity
          |exists 24%nat; split; reflexivity|exists 25%nat; split; reflexivity].
Qed.
Lemma pair_lower n c d : get n uppers = Some c -> get n lowers = Some d -> lower_char c = d /\ lower_char d = d.
Proof. do 26 (destruct n as [|n]; [intros H1 H2; injection H1 as <-; injection H2 as <-; split; reflexivity|]). intro H. cbn in H. destruct n; discriminate H. Qed.
Lemma lowers_same n m c : get n lowers = Some c -> get m lowers = Some c -> get n uppers = get m uppers.
Proof.
  do 26 (destruct n as [|n]; [intro H1; injection H1 as <-; do 26 (destruct m as [|m]; [intro H2; first [reflexivity|discriminate H2]|]); intro H2; cbn in H2; destruct m; discriminate H2|]).
  intro H. cbn in H. destruct n; discriminate H.
Qed.
Lemma lower_char_same c d : lower_char c = lower_char d <-> same_letter c d.
Proof.
  split.
  - intro H. destruct (lower_char_cases c) as [C|(n & U & L)], (lower_char_cases d) as [D|(m & U' & L')].
    + left. congruence.
    + right. exists m. right. split; [congruence|exact U'].
    + right. exists n. left. split; [exact U|congruence].
    + left. rewrite H in L. pose proof (lowers_same n m _ L L'). congruence.
  - intros [->|(n & [[U L]|[L U]])]; [reflexivity| |]; destruct (pair_lower n _ _ U L); congruence.
Qed.
Lemma lower_same s t : lower s = lower t <-> same_letters s t.
Proof.
  revert t. induction s as [|c s IH]; intros [|d t]; cbn [lower]; [split; [constructor|reflexivity]|split; [discriminate|intro H; inversion H]..|].
  split; [intro H; injection H as H1 H2; constructor; [apply lower_char_same, H1|apply IH, H2]|intro H; inversion H; subst; f_equal; [apply lower_char_same; assumption|apply IH; assumption]].
Qed.
(** The filter keeps exactly the events whose spacecraft has the same name up to the case of its letters. *)
Theorem C70_filter_ignores_case : forall data spacecraft kept,
  (forall e e' n n', In e data -> In e' data -> e_sc e = Some n -> e_sc e' = Some n' -> same_letters n n' -> n = n') ->
  filter_events data spacecraft = Ok kept ->
  forall e, In e kept <-> In e data /\ exists n, e_sc e = Some n /\ same_letters n spacecraft.
Proof.
  intros data spacecraft kept H1 H2 e. destruct (C70_filter_by_spacecraft_partial data spacecraft kept) as [_ Q]; [intros a b n m Ia Ib Ea Eb L; apply (H1 a b n m Ia Ib Ea Eb), lower_same, L|exact H2|].
  rewrite Q. unfold same_craft. split; intros [I (n & E & L)]; (split; [exact I|]); exists n; (split; [exact E|]); apply lower_same; exact L.
Qed.
Example C70_case_ex : same_letters "Wind-L1" "WIND-l1" /\ ~ same_letters "PSP" "PSP2" /\ ~ same_letters "a[" "a{".
Proof. split; [apply lower_same; reflexivity|]. split; intro H; apply lower_same in H; discriminate H. Qed.
(** Without a cache directory the data are downloaded every time and no cache is written. *)
Theorem C70_without_cache_directory : forall now served c, load false now served c = (served, true, c).
Proof. reflexivity. Qed.

(* ------------------------------------------------------------------ C65: series without values, gaps *)
(** A series without any value is refused; so is one that lacks minima or maxima. *)
Theorem C65_no_values_refused : forall name th data raw0 raw1, Forall (fun s => snd s = None) data -> find_extrema name th data raw0 raw1 = Err IndexError.
Proof.
  intros name th data raw0 raw1 H. unfold find_extrema. assert (C : forall p, crossings th p data = []); [|rewrite C; reflexivity].
  induction H as [|[t v] data V _ IH]; intro p; [reflexivity|]. cbn in V. subst v. cbn [crossings]. apply IH.
Qed.
Lemma mapM_all_one th (b : bool) ms : (forall s x, In s ms -> snd s = Some x -> (th <? x)%Z = b) -> forall bs, exists e, mapM (group_extremum th) (cut bs ms) = Ok e /\ pick (negb b) e = [].
Proof.
  intros H bs. assert (G : forall g, (forall s, In s g -> In s ms) -> exists o, group_extremum th g = Ok o /\ pick (negb b) [o] = []).
  { intros g Hg. unfold group_extremum. destruct (clean g) as [|s r] eqn:E; [exists None; split; reflexivity|]. cbv zeta.
    assert (V : forall s', In s' (s :: r) -> (th <? snd s')%Z = b).
    { intros s' I. rewrite <- E in I. unfold clean in I. apply in_flat_map in I. destruct I as ([t [x|]] & I & J); [|destruct J]. destruct J as [<-|[]]. cbn [snd fst]. apply (H (t, Some x)); [apply Hg, I|reflexivity]. }
    destruct b.
    - replace (filter (fun s0 => negb (th <? snd s0)%Z) (s :: r)) with (@nil (Z * Z)).
      2:{ symmetry. clear - V. induction (s :: r) as [|a l IH]; [reflexivity|]. cbn [filter]. rewrite (V a (or_introl eq_refl)). cbn [negb]. apply IH. intros; apply V; right; assumption. }
      cbn [filter]. rewrite (V s (or_introl eq_refl)). cbn [List.length]. eexists. split; [destruct (List.length (filter _ r)); reflexivity|]. reflexivity.
    - replace (filter (fun s0 => (th <? snd s0)%Z) (s :: r)) with (@nil (Z * Z)).
      2:{ symmetry. clear - V. induction (s :: r) as [|a l IH]; [reflexivity|]. cbn [filter]. rewrite (V a (or_introl eq_refl)). apply IH. intros; apply V; right; assumption. }
      cbn [List.length]. eexists. split; [reflexivity|]. reflexivity. }
  induction bs as [|x bs IH]; [exists []; split; reflexivity|]. destruct bs as [|y bs]; [exists []; split; reflexivity|]. cbn [cut mapM].
  destruct (G (filter (fun s => ((x <? fst s) && (fst s <=? y))%Z) ms)) as (o & -> & P); [intros s I; apply filter_In in I; apply I|]. cbn [bind].
  destruct IH as (e & E & Q). cbn [cut] in E. rewrite E. cbn [bind]. exists (o :: e). split; [reflexivity|].
  unfold pick in *. cbn [flat_map] in *. rewrite Q, app_nil_r in *. exact P.
Qed.
Theorem C65_one_sided_refused : forall name th data raw0 raw1 (b : bool), (forall s x, In s data -> snd s = Some x -> (th <? x)%Z = b) -> find_extrema name th data raw0 raw1 = Err IndexError.
Proof.
  intros name th data raw0 raw1 b H. unfold find_extrema. destruct (bins (crossings th None data) raw0 raw1) as [bs|e] eqn:B.
  - cbn [bind]. destruct (mapM_all_one th b data H bs) as (e & -> & P). cbn [bind].
    assert (TM : forall n, trim_max n [] = []) by (intro n; unfold trim_max; repeat match goal with |- (if ?c then _ else _) = _ => destruct c | |- match ?c with _ => _ end = _ => destruct c end; reflexivity).
    assert (TN : forall n, trim_min n [] = []) by (intro n; unfold trim_min; repeat match goal with |- (if ?c then _ else _) = _ => destruct c | |- match ?c with _ => _ end = _ => destruct c end; reflexivity).
    destruct b; cbn [negb] in P.
    + destruct (apart (trim_max name (pick true e))) as [mx|x] eqn:A; cbn [bind]; [rewrite P, TN; reflexivity|]. unfold apart in A. destruct (trim_max name (pick true e)); [injection A as <-; reflexivity|discriminate].
    + rewrite P, TM. reflexivity.
  - cbn [bind]. unfold bins in B. destruct (crossings th None data); [injection B as <-; reflexivity|discriminate].
Qed.
(** After a gap, the first value off the threshold begins a new interval, whatever was there before the gap. *)
Theorem C65_gap_begins_interval : forall th pre t0 t x post, x <> th -> In t (crossings th None (pre ++ (t0, None) :: (t, Some x) :: post)).
Proof.
  intros th pre t0 t x post N. generalize (@None (bool * bool)). induction pre as [|[s v] pre IH]; intro p.
  - cbn [app crossings high low fst snd]. destruct (th <? x)%Z eqn:E1; [left; reflexivity|]. destruct (x <? th)%Z eqn:E2; [left; reflexivity|].
    apply Z.ltb_ge in E1, E2. lia.
  - cbn [app crossings]. destruct v as [v|]; [|apply IH]. match goal with |- In _ (if ?c then _ else _) => destruct c end; [right|]; apply IH.
Qed.

(* ------------------------------------------------------------------ C34: what a spacecraft knows *)
(** The velocity and the Carrington position are known exactly if all their components are; else it is a KeyError. *)
Theorem C34_velocity : forall (sc : spacecraft XR),
  (forall c, In c ["x"; "y"; "z"]%string -> In ("v", c, "")%string (f_cols (sc_data sc)))
  /\ sc_velocity sc = Ok (fun r => (r ("v", "x", ""), r ("v", "y", ""), r ("v", "z", ""))%string)
  \/ (exists c, In c ["x"; "y"; "z"]%string /\ ~ In ("v", c, "")%string (f_cols (sc_data sc))) /\ sc_velocity sc = Err KeyError.
Proof.
  intro sc. unfold sc_velocity. destruct (forallb (fun c => mem_key ("v", c, "")%string (f_cols (sc_data sc))) ["x"; "y"; "z"]%string) eqn:F.
  - left. rewrite forallb_forall in F. assert (H : forall c, In c ["x"; "y"; "z"]%string -> In ("v", c, "")%string (f_cols (sc_data sc))) by (intros c I; apply mem_key_In, F, I). split; [exact H|].
    replace (has_label kM "v" (f_cols (sc_data sc))) with true; [reflexivity|]. symmetry. unfold has_label. apply existsb_exists. exists ("v", "x", "")%string. split; [apply H; left; reflexivity|reflexivity].
  - right. split; [|rewrite andb_false_r; reflexivity].
    destruct (mem_key ("v", "x", "")%string (f_cols (sc_data sc))) eqn:X; [destruct (mem_key ("v", "y", "")%string (f_cols (sc_data sc))) eqn:Y; [destruct (mem_key ("v", "z", "")%string (f_cols (sc_data sc))) eqn:Zz|]|].
    + exfalso. cbn [forallb] in F. rewrite X, Y, Zz in F. discriminate F.
    + exists "z"%string. split; [cbn; tauto|]. intro I. apply mem_key_In in I. congruence.
    + exists "y"%string. split; [cbn; tauto|]. intro I. apply mem_key_In in I. congruence.
    + exists "x"%string. split; [cbn; tauto|]. intro I. apply mem_key_In in I. congruence.
Qed.
Theorem C34_carrington : forall (sc : spacecraft XR),
  (forall c, In c ["lat"; "lon"]%string -> In ("carr", c, "")%string (f_cols (sc_data sc)))
  /\ sc_carrington sc = Ok (fun r => (r ("carr", "lat", ""), r ("carr", "lon", ""))%string)
  \/ (exists c, In c ["lat"; "lon"]%string /\ ~ In ("carr", c, "")%string (f_cols (sc_data sc))) /\ sc_carrington sc = Err KeyError.
Proof.
  intro sc. unfold sc_carrington. destruct (forallb (fun c => mem_key ("carr", c, "")%string (f_cols (sc_data sc))) ["lat"; "lon"]%string) eqn:F.
  - left. rewrite forallb_forall in F. assert (H : forall c, In c ["lat"; "lon"]%string -> In ("carr", c, "")%string (f_cols (sc_data sc))) by (intros c I; apply mem_key_In, F, I). split; [exact H|].
    replace (has_label kM "carr" (f_cols (sc_data sc))) with true; [reflexivity|]. symmetry. unfold has_label. apply existsb_exists. exists ("carr", "lat", "")%string. split; [apply H; left; reflexivity|reflexivity].
  - right. split; [|rewrite andb_false_r; reflexivity].
    destruct (mem_key ("carr", "lat", "")%string (f_cols (sc_data sc))) eqn:X; [destruct (mem_key ("carr", "lon", "")%string (f_cols (sc_data sc))) eqn:Y|].
    + exfalso. cbn [forallb] in F. rewrite X, Y in F. discriminate F.
    + exists "lon"%string. split; [cbn; tauto|]. intro I. apply mem_key_In in I. congruence.
    + exists "lat"%string. split; [cbn; tauto|]. intro I. apply mem_key_In in I. congruence.
Qed.
Theorem C34_position : forall (r : row XR), sc_position r = (r ("pos", "x", ""), r ("pos", "y", ""), r ("pos", "z", ""))%string.
Proof. reflexivity. Qed.
Theorem C34_other_frames : forall au fr (r : row XR), fr <> "GSE"%string -> fr <> "HCI"%string -> distance2sun au fr r = Err NotImplementedError.
Proof. intros au fr r N1 N2. unfold distance2sun. cbv zeta. destruct (sc_position r) as [[x y] z]. rewrite (proj2 (String.eqb_neq _ _) N1), (proj2 (String.eqb_neq _ _) N2). reflexivity. Qed.

(* ------------------------------------------------------------------ C26, C28: what saving and loading refuse *)
Theorem C26_save_needs_scalars : forall (p : plasma XR) dkey sckey akey f, (forall k, In k (f_cols (p_data p)) -> kC k <> "scalar"%string) -> save p dkey sckey akey f = Err KeyError.
Proof.
  intros p dkey sckey akey f H. unfold save, save_writes, drop_scalar. replace (has_label kC "scalar" (f_cols (p_data p))) with false; [reflexivity|]. symmetry. unfold has_label.
  induction (f_cols (p_data p)) as [|k l IH]; [reflexivity|]. cbn [existsb]. rewrite IH by (intros; apply H; right; assumption). rewrite orb_false_r. apply String.eqb_neq. intro E. apply (H k); [left; reflexivity|auto].
Qed.
(** A window of data whose times do not increase is refused; of spacecraft or auxiliary data every time of the plasma is needed. *)
Theorem C28_unordered_times_refused : forall start stop (d : frame XR), start <> None \/ stop <> None -> monotonic (f_index d) = false -> loc_slice start stop d = Err KeyError.
Proof. intros [a|] [b|] d H M; unfold loc_slice; rewrite ?M; try reflexivity. destruct H as [H|H]; contradiction. Qed.
Theorem C28_missing_time_refused : forall idx (d : frame XR) t, In t idx -> (forall r, In r (f_rows d) -> fst r <> t) -> loc_labels idx d = Err KeyError.
Proof.
  intros idx d t I H. unfold loc_labels. replace (forallb _ idx) with false; [reflexivity|]. symmetry. apply not_true_iff_false. intro F. rewrite forallb_forall in F. specialize (F t I).
  apply existsb_exists in F. destruct F as (r & Ir & E). apply Z.eqb_eq in E. exact (H r Ir E).
Qed.

(* ------------------------------------------------------------------ C41, C47, C48, C96, C139, C146 *)
Theorem C41_only_strings : alf_clean_species POther = Err TypeError.
Proof. reflexivity. Qed.
(** The kinds of refusal. *)
Theorem C47_kinds_of_refusal : forall (raw : obs (T := XR)) l,
  (List.length (o_x raw) <> List.length (o_y raw) \/ (exists w, o_w raw = Some w /\ List.length w <> List.length (o_x raw)) -> set_fit_obs raw l = Err InvalidParameterError)
  /\ (List.length (o_x raw) = List.length (o_y raw) -> (forall w, o_w raw = Some w -> List.length w = List.length (o_x raw)) ->
      (exists lo hi, (l_xout l = Some (lo, hi) \/ l_yout l = Some (lo, hi)) /\ altb lo hi = false) -> set_fit_obs raw l = Err AssertionError)
  /\ (o_w raw = None -> l_wmin l <> None \/ l_wmax l <> None -> init_obs raw l = Err AssertionError)
  /\ (o_w raw <> None \/ l_wmin l = None /\ l_wmax l = None -> init_obs raw l = set_fit_obs raw l).
Proof.
  intros raw l. split; [|split; [|split]].
  - intro H. unfold set_fit_obs. cbv zeta. destruct (Nat.eqb (List.length (o_x raw)) (List.length (o_y raw))) eqn:E; [|reflexivity]. apply Nat.eqb_eq in E. destruct H as [H|(w & W & H)]; [contradiction|].
    rewrite W. rewrite (proj2 (Nat.eqb_neq _ _) H). reflexivity.
  - intros E W (lo & hi & H & L). unfold set_fit_obs. cbv zeta. rewrite (proj2 (Nat.eqb_eq _ _) E). cbn [negb].
    assert (WW : match o_w raw with Some w => Nat.eqb (List.length w) (List.length (o_x raw)) | None => true end = true) by (destruct (o_w raw) as [w|]; [apply Nat.eqb_eq, W; reflexivity|reflexivity]). rewrite WW. cbn [negb].
    destruct H as [H|H]; rewrite H; unfold outside_ok; rewrite L; [reflexivity|]. destruct (l_xout l) as [[a b]|]; [destruct (altb a b)|]; reflexivity.
  - intros W H. unfold init_obs. rewrite W. destruct (l_wmin l); [reflexivity|]. destruct (l_wmax l); [reflexivity|]. destruct H as [H|H]; contradiction.
  - intro H. unfold init_obs. destruct (o_w raw); [reflexivity|]. destruct H as [H|[-> ->]]; [contradiction|reflexivity].
Qed.
(** Which failures of a fit are returned: RuntimeError, ValueError and failed fits; every other exception passes through. *)
Theorem C48_returned_failures : forall lsq (o : ffobj (T := XR)) k e, c_discards (ff_class o) = false -> enough o -> k_absolute_sigma k = false -> run_least_squares lsq o k = Err e ->
  make_fit lsq o false k = (Raised e, o)
  /\ (In e [RuntimeError; ValueError; FitFailedError] -> make_fit lsq o true k = (Returned (Some e), o))
  /\ (~ In e [RuntimeError; ValueError; FitFailedError] -> make_fit lsq o true k = (Raised e, o)).
Proof.
  intros lsq o k e D En AS R. unfold make_fit, base_make_fit. unfold enough in En. apply Nat.leb_le in En. rewrite En, AS, R, D. cbn [negb].
  split; [rewrite andb_false_r; reflexivity|]. rewrite andb_true_r. split.
  - intros [<-|[<-|[<-|[]]]]; reflexivity.
  - intro N. destruct e; cbn [caught]; try reflexivity; exfalso; apply N; cbn; tauto.
Qed.
Theorem C96_no_value_before_a_fit : forall (o : ffobj (T := XR)) x, ff_popt o = None -> evaluate o x = Err AttributeError.
Proof. intros o x H. unfold evaluate. rewrite H. reflexivity. Qed.
Theorem C139_wrong_selection : forall u (yfit : list XR) fn, List.length yfit = List.length (o_x (u_raw u)) ->
  List.length (select (u_mask u) yfit) <> List.length (o_x (u_used u)) -> ff_new u yfit fn = Err AssertionError.
Proof. intros u yfit fn E N. unfold ff_new. rewrite (proj2 (Nat.eqb_eq _ _) E), (proj2 (Nat.eqb_neq _ _) N). reflexivity. Qed.
(** Where the scales go depends on whether the z component ends in "norm". *)
Theorem C146_ends_in : forall suf s, ends_in suf s = true <-> exists a, s = (a ++ suf)%string.
Proof.
  intros suf s. induction s as [|c s IH]; cbn [ends_in].
  - rewrite orb_false_r, String.eqb_eq. split; [intros ->; exists ""%string; reflexivity|]. intros ([|c a] & E); [symmetry; exact E|discriminate E].
  - rewrite orb_true_iff, String.eqb_eq, IH. split.
    + intros [->|(a & ->)]; [exists ""%string; reflexivity|exists (String c a); reflexivity].
    + intros ([|d a] & E); [left; symmetry; exact E|right]. injection E as _ E. exists a. exact E.
Qed.
Theorem C146_unknown_labels : forall kw auto s e, In e kw -> ~ In (fst e) ["x"; "y"; "z"]%string -> (forall q, In q kw -> fst q <> "z"%string) -> set_labels kw auto s = Err KeyError.
Proof.
  intros kw auto s e I N NZ. unfold set_labels. cbv zeta.
  assert (F : forallb (fun e => mem_str (fst e) ["x"; "y"; "z"]%string) kw = false).
  { apply not_true_iff_false. intro F. rewrite forallb_forall in F. apply N, mem_str_In, F, I. }
  rewrite F. assert (M : mem_str "z" (map fst kw) = false).
  { apply not_true_iff_false. intro M. apply mem_str_In in M. apply in_map_iff in M. destruct M as (q & E & Iq). exact (NZ q Iq E). }
  rewrite M. destruct (s_class s); reflexivity.
Qed.
