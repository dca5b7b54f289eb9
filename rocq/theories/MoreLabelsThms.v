(** Properties C168-C172: date and time labels, elemental abundances, ions, sunspot numbers, cross-correlations. *)
From Coq Require Import List String Ascii Bool Arith NArith ZArith Lia DecimalString DecimalZ.
From Verif Require Import Py PyStr LabelTables Labels LabelsThms Spacecraft Icme Tight2Thms MoreLabels.
Import ListNotations.
Open Scope string_scope.

(* ------------------------------------------------------------ strings *)
Fixpoint all_chars (P : ascii -> Prop) (s : string) : Prop :=
  match s with EmptyString => True | String c r => P c /\ all_chars P r end.
Definition starts_outside (P : ascii -> Prop) (s : string) : Prop :=
  match s with EmptyString => True | String c _ => ~ P c end.
Lemma prefix_unique (P : ascii -> Prop) a : forall b x y, all_chars P a -> all_chars P b -> starts_outside P x -> starts_outside P y ->
  a ++ x = b ++ y -> a = b /\ x = y.
Proof.
  induction a as [|c a IH]; intros [|d b] x y A B X Y E; cbn [append] in E; [auto| | |].
  - exfalso. rewrite E in X. destruct B as [B _]. exact (X B).
  - exfalso. rewrite <- E in Y. destruct A as [A _]. exact (Y A).
  - injection E as -> E. destruct A as [_ A], B as [_ B]. destruct (IH b x y A B X Y E) as [-> ->]. auto.
Qed.
Lemma sapp_inj_r a : forall b x, a ++ x = b ++ x -> a = b.
Proof.
  induction a as [|c a IH]; intros [|d b] x E; cbn [append] in E; [reflexivity| | |].
  - exfalso. assert (L : String.length x = String.length (String d (b ++ x))) by congruence. cbn in L. rewrite slen_app in L. lia.
  - exfalso. assert (L : String.length x = String.length (String c (a ++ x))) by congruence. cbn in L. rewrite slen_app in L. lia.
  - injection E as -> E. f_equal. exact (IH _ _ E).
Qed.
Lemma sapp_inj_l a x y : a ++ x = a ++ y -> x = y.
Proof. induction a as [|c a IH]; cbn [append]; intro E; [exact E|]. injection E as E. exact (IH E). Qed.
Lemma no_char_all c s : has_char c s = false -> all_chars (fun d => d <> c) s.
Proof.
  induction s as [|d s IH]; cbn; [trivial|]. intro E. apply orb_false_elim in E as [E1 E2]. split; [|exact (IH E2)].
  intros ->. rewrite Ascii.eqb_refl in E1. discriminate.
Qed.
(** the first and the last occurrence of a separator *)
Lemma first_sep c a b x y : has_char c a = false -> has_char c b = false -> a ++ String c x = b ++ String c y -> a = b /\ x = y.
Proof.
  intros A B E. destruct (prefix_unique (fun d => d <> c) a b (String c x) (String c y)) as [-> F]; auto using no_char_all; try (cbn; tauto).
  injection F as ->. auto.
Qed.
Lemma last_sep c a : forall b x y, has_char c x = false -> has_char c y = false -> a ++ String c x = b ++ String c y -> a = b /\ x = y.
Proof.
  induction a as [|d a IH]; intros [|e b] x y X Y E; cbn [append] in E.
  - injection E as ->. auto.
  - exfalso. injection E as _ E. rewrite E, has_char_app in X. cbn in X. rewrite Ascii.eqb_refl, orb_true_r in X. discriminate.
  - exfalso. injection E as _ E. rewrite <- E, has_char_app in Y. cbn in Y. rewrite Ascii.eqb_refl, orb_true_r in Y. discriminate.
  - injection E as -> E. destruct (IH _ _ _ X Y E) as [-> ->]. auto.
Qed.
Lemma mkpath_single s : has_char "/" s = false -> s <> "" -> s <> "." -> mkpath s = [s].
Proof.
  intros H1 H2 H3. unfold mkpath. rewrite split_on_nochar by exact H1. cbn.
  destruct (String.eqb_spec s ""); [congruence|]. destruct (String.eqb_spec s "."); [congruence|reflexivity].
Qed.

Lemma replace_absent c new s : has_char c s = false -> replace (String c "") new s = s.
Proof.
  unfold replace. induction s as [|d s IH]; [reflexivity|]. cbn [replace_go has_char]. intro E. apply orb_false_elim in E as [E1 E2].
  replace (String.prefix (String c "") (String d s)) with false; [rewrite IH by exact E2; reflexivity|].
  cbn [String.prefix]. destruct (ascii_dec c d) as [<-|]; [rewrite Ascii.eqb_refl in E1; discriminate|reflexivity].
Qed.

(* ------------------------------------------------------------ decimal numbers *)
Definition number_char (c : ascii) : Prop := In c (list_ascii_of_string "-0123456789").
Lemma show_uint_chars u : all_chars number_char (NilEmpty.string_of_uint u).
Proof. induction u; cbn; [exact Logic.I|..]; (split; [cbn; tauto|assumption]). Qed.
Lemma show_Z_chars z : all_chars number_char (show_Z z).
Proof.
  unfold show_Z. destruct (Z.to_int z) as [u|u]; cbn; [|split; [cbn; tauto|]];
    (destruct u; [cbn; tauto|apply (show_uint_chars (Decimal.D0 u))|apply (show_uint_chars (Decimal.D1 u))|apply (show_uint_chars (Decimal.D2 u))
      |apply (show_uint_chars (Decimal.D3 u))|apply (show_uint_chars (Decimal.D4 u))|apply (show_uint_chars (Decimal.D5 u))|apply (show_uint_chars (Decimal.D6 u))
      |apply (show_uint_chars (Decimal.D7 u))|apply (show_uint_chars (Decimal.D8 u))|apply (show_uint_chars (Decimal.D9 u))]).
Qed.
Lemma to_int_not_nil z : Z.to_int z <> Decimal.Pos Decimal.Nil /\ Z.to_int z <> Decimal.Neg Decimal.Nil.
Proof.
  split; intro E; assert (F := f_equal Z.of_int E); rewrite of_to in F; cbn in F; subst z; discriminate.
Qed.
Lemma show_Z_inj a b : show_Z a = show_Z b -> a = b.
Proof.
  unfold show_Z. intro E. destruct (to_int_not_nil a) as [A1 A2], (to_int_not_nil b) as [B1 B2].
  assert (F := f_equal NilZero.int_of_string E). rewrite !NilZero.isi in F by assumption. injection F as F. apply to_int_inj, F.
Qed.
Lemma show_Z_starts z : exists c r, show_Z z = String c r /\ number_char c.
Proof.
  generalize (show_Z_chars z). destruct (show_Z z) as [|c r] eqn:E; [|intros [H _]; eauto].
  exfalso. unfold show_Z in E. destruct (to_int_not_nil z) as [A B]. assert (F := NilZero.isi _ A B). rewrite E in F. discriminate.
Qed.
Lemma all_chars_no (P : ascii -> Prop) c s : (P c -> False) -> all_chars P s -> has_char c s = false.
Proof.
  intros N. induction s as [|d s IH]; cbn; [reflexivity|]. intros [H1 H2]. rewrite (IH H2).
  destruct (Ascii.eqb_spec c d) as [->|]; [exfalso; auto|reflexivity].
Qed.

(* ------------------------------------------------------------ C168 *)
(** Specification: the name of a unit of time starts with a letter (pandas: D, h, min, MS, ...) and is a plain file name. *)
Definition unit_name (s : string) : Prop :=
  (exists c r, s = String c r /\ is_letter c = true) /\ has_char "/" s = false.
Lemma letter_not_number c : is_letter c = true -> ~ number_char c.
Proof. intros L N. cbn in N. repeat destruct N as [<-|N]; try discriminate L. exact N. Qed.
Lemma freqstr_inj n a m b : unit_name a -> unit_name b -> freqstr n a = freqstr m b -> n = m /\ a = b.
Proof.
  intros [(c & r & Ea & La) _] [(d & q & Eb & Lb) _]. unfold freqstr. intro E.
  assert (N : forall k x, show_Z k ++ x = a \/ show_Z k ++ x = b -> False).
  { intros k x H. destruct (show_Z_starts k) as (e & s & Es & Ne). rewrite Es, Ea, Eb in H. cbn in H.
    destruct H as [H|H]; injection H as -> _; [exact (letter_not_number c La Ne)|exact (letter_not_number d Lb Ne)]. }
  destruct (Z.eqb_spec n 1) as [->|]; destruct (Z.eqb_spec m 1) as [->|]; [auto|exfalso; apply (N m b); left; congruence|exfalso; apply (N n a); right; congruence|].
  destruct (prefix_unique number_char (show_Z n) (show_Z m) a b) as [F ->]; auto using show_Z_chars;
    [rewrite Ea; cbn; apply letter_not_number, La|rewrite Eb; cbn; apply letter_not_number, Lb|]. split; [apply show_Z_inj, F|reflexivity].
Qed.
Lemma freqstr_slash n a : has_char "/" a = false -> has_char "/" (freqstr n a) = false.
Proof.
  intro H. unfold freqstr. destruct (Z.eqb n 1); [exact H|]. rewrite has_char_app, H, orb_false_r.
  apply (all_chars_no number_char); [|apply show_Z_chars]. cbn. intuition discriminate.
Qed.
(** What the label of a known step says. *)
Theorem C168_timedelta_says : forall n name descr, unit_name name ->
  let l := timedelta_label (Some (n, name)) descr in
  l_tex l = "\Delta t" /\ l_units l = Some (show_Z n ++ " \; \mathrm{" ++ name ++ "}") /\
  l_path l = ["dt-" ++ (if Z.eq_dec n 1 then name else show_Z n ++ name)] /\
  l_str l = with_description descr ("$\Delta t \; [" ++ show_Z n ++ " \; \mathrm{" ++ name ++ "}]$").
Proof.
  intros n name descr [_ H] l. unfold l, timedelta_label. cbn [l_tex l_units l_path l_str timedelta_units]. repeat split.
  - rewrite mkpath_single; [|cbn [append has_char]; rewrite freqstr_slash by exact H; reflexivity|discriminate|discriminate].
    unfold freqstr. destruct (Z.eqb_spec n 1), (Z.eq_dec n 1); congruence.
  - rewrite !sapp_assoc. reflexivity.
Qed.
(** Different steps never share a file name nor a text. *)
Theorem C168_timedelta_distinct : forall n a m b, unit_name a -> unit_name b ->
  (l_path (timedelta_label (Some (n, a)) None) = l_path (timedelta_label (Some (m, b)) None) \/
   l_str (timedelta_label (Some (n, a)) None) = l_str (timedelta_label (Some (m, b)) None)) -> n = m /\ a = b.
Proof.
  intros n a m b Ha Hb [E|E].
  - cbn [timedelta_label l_path] in E. pose proof (proj2 Ha); pose proof (proj2 Hb).
    rewrite !mkpath_single in E; try discriminate; try (cbn [append has_char]; rewrite freqstr_slash by assumption; reflexivity).
    injection E as E. apply freqstr_inj; assumption.
  - cbn [timedelta_label timedelta_units l_str with_description] in E. apply sapp_inj_l in E. rewrite !sapp_assoc in E.
    apply (prefix_unique number_char) in E; auto using show_Z_chars; try (cbn; intuition discriminate).
    destruct E as [E F]. split; [apply show_Z_inj, E|]. apply sapp_inj_l in F. exact (sapp_inj_r _ _ _ F).
Qed.
(** A step that pandas does not understand is labelled as unknown, the same for all of them. *)
Theorem C168_unknown_step : forall descr,
  l_units (timedelta_label None descr) = Some "???" /\ l_path (timedelta_label None descr) = ["dt-UNK"] /\
  l_path (frequency_label None descr) = ["frequency_of_UNK"] /\ l_units (frequency_label None descr) = Some "(???)^-1".
Proof. intro descr. repeat split. Qed.
(** Frequencies: the unit is one over the step ... *)
Theorem C168_frequency_says : forall n name descr,
  let l := frequency_label (Some (n, name)) descr in
  l_tex l = "\mathrm{Frequency}" /\ l_units l = Some ("(" ++ show_Z n ++ " \; \mathrm{" ++ name ++ "})^-1") /\
  l_str l = with_description descr ("$\mathrm{Frequency} \; [(" ++ show_Z n ++ " \; \mathrm{" ++ name ++ "})^-1]$").
Proof.
  intros n name descr l. unfold l, frequency_label, frequency_units. cbn [l_tex l_units l_str timedelta_units]. repeat split; repeat rewrite !sapp_assoc; reflexivity.
Qed.
(** ... and different frequencies have different texts. *)
Theorem C168_frequency_distinct : forall n a m b,
  l_str (frequency_label (Some (n, a)) None) = l_str (frequency_label (Some (m, b)) None) -> n = m /\ a = b.
Proof.
  intros n a m b E. destruct (C168_frequency_says n a None) as (_ & _ & E1). destruct (C168_frequency_says m b None) as (_ & _ & E2).
  rewrite E1, E2 in E. cbn [with_description] in E. apply sapp_inj_l in E. apply (prefix_unique number_char) in E; auto using show_Z_chars; try (cbn; intuition discriminate).
  destruct E as [E F]. split; [apply show_Z_inj, E|]. apply sapp_inj_l in F. exact (sapp_inj_r _ _ _ F).
Qed.
Example step_3D : l_str (timedelta_label (Some (3%Z, "D")) None) = "$\Delta t \; [3 \; \mathrm{D}]$" /\ l_path (timedelta_label (Some (3%Z, "D")) None) = ["dt-3D"]
  /\ l_path (timedelta_label (Some (1%Z, "h")) (Some "step")) = ["dt-h"] /\ unit_name "D".
Proof. repeat split. exists "D"%char, ""; split; reflexivity. Qed.
(** Refuted: "the exponent of a frequency's unit is the whole -1 and its path is a plain file name". TeX raises only the sign, and the path
    holds blanks, backslashes and braces. *)
Theorem C168_frequency_plain_refuted : exists n name,
  l_units (frequency_label (Some (n, name)) None) <> Some ("(" ++ show_Z n ++ " \; \mathrm{" ++ name ++ "})^{-1}") /\
  l_path (frequency_label (Some (n, name)) None) = ["frequency_of_(1 \; \mathrm{D})^-1"].
Proof. exists 1%Z, "D". split; [discriminate|reflexivity]. Qed.

(* ------------------------------------------------------------ C169 *)
(** The four spaces TeX knows. *)
Theorem C169_epoch_spaces : forall kind of_thing space descr,
  ((exists l, epoch_label kind of_thing space descr = Ok l) <-> space = " " \/ space = "\," \/ space = "\;" \/ space = "\:") /\
  (forall e, epoch_label kind of_thing space descr = Err e -> e = ValueError).
Proof.
  intros kind of_thing space descr. unfold epoch_label. destruct (mem_str space [" "; "\,"; "\;"; "\:"]) eqn:E; cbn [negb].
  - split; [|discriminate]. split; [|eauto]. intros _. apply mem_str_In in E. cbn in E. intuition.
  - split; [|congruence]. split; [intros [l H]; discriminate|]. intro H. exfalso.
    assert (T : mem_str space [" "; "\,"; "\;"; "\:"] = true) by (apply mem_str_In; cbn; intuition). congruence.
Qed.
(** [title]: the first letter of every word is a capital, the other letters are small; nothing else changes *)
Definition word_start (before : option ascii) : bool := match before with Some c => negb (is_letter c) | None => true end.
Fixpoint titled (before : option ascii) (s t : string) : Prop :=
  match s, t with
  | EmptyString, EmptyString => True
  | String c s', String d t' => same_letter c d /\ (is_letter c = true -> if word_start before then is_upper d = true else is_lower d = true) /\
                                (is_letter c = false -> d = c) /\ titled (Some c) s' t'
  | _, _ => False
  end.
Lemma upper_is_same c : same_letter c (upper_ascii c).
Proof.
  destruct c as [[|] [|] [|] [|] [|] [|] [|] [|]]; first [left; reflexivity|right;
    first [exists 0%nat; right; split; reflexivity|exists 1%nat; right; split; reflexivity|exists 2%nat; right; split; reflexivity|exists 3%nat; right; split; reflexivity
          |exists 4%nat; right; split; reflexivity|exists 5%nat; right; split; reflexivity|exists 6%nat; right; split; reflexivity|exists 7%nat; right; split; reflexivity
          |exists 8%nat; right; split; reflexivity|exists 9%nat; right; split; reflexivity|exists 10%nat; right; split; reflexivity|exists 11%nat; right; split; reflexivity
          |exists 12%nat; right; split; reflexivity|exists 13%nat; right; split; reflexivity|exists 14%nat; right; split; reflexivity|exists 15%nat; right; split; reflexivity
          |exists 16%nat; right; split; reflexivity|exists 17%nat; right; split; reflexivity|exists 18%nat; right; split; reflexivity|exists 19%nat; right; split; reflexivity
          |exists 20%nat; right; split; reflexivity|exists 21%nat; right; split; reflexivity|exists 22%nat; right; split; reflexivity|exists 23%nat; right; split; reflexivity
          |exists 24%nat; right; split; reflexivity|exists 25%nat; right; split; reflexivity]].
Qed.
Lemma lower_is_same c : same_letter c (lower_char c).
Proof. destruct (lower_char_cases c) as [->|(n & A & B)]; [left; reflexivity|right; exists n; left; split; assumption]. Qed.
Lemma upper_ascii_case c : (is_letter c = true -> is_upper (upper_ascii c) = true) /\ (is_letter c = false -> upper_ascii c = c).
Proof. destruct c as [[|] [|] [|] [|] [|] [|] [|] [|]]; split; intro H; first [reflexivity|discriminate H]. Qed.
Lemma lower_char_case c : (is_letter c = true -> is_lower (lower_char c) = true) /\ (is_letter c = false -> lower_char c = c).
Proof. destruct c as [[|] [|] [|] [|] [|] [|] [|] [|]]; split; intro H; first [reflexivity|discriminate H]. Qed.
Lemma title_go_titled s : forall b p, b = negb (word_start p) -> titled p s (title_go b s).
Proof.
  induction s as [|c s IH]; intros b p E; cbn [title_go titled]; [exact Logic.I|]. repeat split.
  - destruct b; [apply lower_is_same|apply upper_is_same].
  - intro L. destruct (word_start p); subst b; cbn [negb]; [apply upper_ascii_case, L|apply lower_char_case, L].
  - intro L. destruct b; [apply lower_char_case, L|apply upper_ascii_case, L].
  - apply IH. cbn. destruct (is_letter c); reflexivity.
Qed.
Theorem C169_title_case : forall s, titled None s (title s).
Proof. intro s. apply title_go_titled. reflexivity. Qed.
Lemma title_char k c b : is_letter k = false -> Ascii.eqb k (if b : bool then lower_char c else upper_ascii c) = Ascii.eqb k c.
Proof.
  intro K. destruct (is_letter c) eqn:L.
  - transitivity false; [|symmetry]; apply Ascii.eqb_neq.
    + intros ->. destruct b; [assert (H := proj1 (lower_char_case c) L)|assert (H := proj1 (upper_ascii_case c) L)]; unfold is_letter in K; rewrite H in K; [rewrite orb_true_r in K|]; discriminate.
    + intros ->. congruence.
  - destruct b; [rewrite (proj2 (lower_char_case c) L)|rewrite (proj2 (upper_ascii_case c) L)]; reflexivity.
Qed.
Lemma title_go_keeps k s : is_letter k = false -> forall b, has_char k (title_go b s) = has_char k s.
Proof. intro K. induction s as [|c s IH]; intro b; cbn [title_go has_char]; [reflexivity|]. rewrite IH, title_char by exact K. reflexivity. Qed.
Lemma title_keeps k s : is_letter k = false -> has_char k (title s) = has_char k s.
Proof. intro K. apply title_go_keeps, K. Qed.
(** what an accepted epoch says *)
Theorem C169_epoch_says : forall kind of_thing space descr l, epoch_label kind of_thing space descr = Ok l ->
  has_char "/" kind = false -> has_char "/" of_thing = false ->
  l_tex l = "\mathrm{" ++ title kind ++ " " ++ space ++ " of " ++ space ++ " " ++ title of_thing ++ "}" /\
  l_path l = [title kind ++ "-of-" ++ title of_thing] /\ l_str l = with_description descr ("$" ++ l_tex l ++ "$").
Proof.
  intros kind of_thing space descr l H K O. unfold epoch_label in H. destruct (negb _); [discriminate|]. injection H as <-.
  cbn [l_tex l_path l_str]. repeat split. apply mkpath_single.
  - rewrite !has_char_app, !title_keeps, K, O by reflexivity. reflexivity.
  - intro E. assert (L := f_equal String.length E). rewrite !slen_app in L. cbn in L. lia.
  - intro E. assert (L := f_equal String.length E). rewrite !slen_app in L. cbn in L. lia.
Qed.
(** two epochs with one path are the same epoch, up to the case of letters *)
Theorem C169_epoch_distinct : forall k o s d l k' o' s' d' l', epoch_label k o s d = Ok l -> epoch_label k' o' s' d' = Ok l' ->
  has_char "/" k = false -> has_char "/" o = false -> has_char "/" k' = false -> has_char "/" o' = false ->
  has_char "-" k = false -> has_char "-" k' = false ->
  l_path l = l_path l' -> title k = title k' /\ title o = title o'.
Proof.
  intros k o s d l k' o' s' d' l' H H' K O K' O' D D' E.
  rewrite (proj1 (proj2 (C169_epoch_says _ _ _ _ _ H K O))) in E. rewrite (proj1 (proj2 (C169_epoch_says _ _ _ _ _ H' K' O'))) in E.
  assert (F : title k ++ String "-" ("of-" ++ title o) = title k' ++ String "-" ("of-" ++ title o')) by exact (f_equal (fun l => List.hd EmptyString l) E).
  apply first_sep in F; [|rewrite title_keeps by reflexivity; assumption..]. destruct F as [F G]. split; [exact F|]. exact (sapp_inj_l "of-" _ _ G).
Qed.
Example hour_of_day : exists l, epoch_label "hour" "DAY" "\," None = Ok l /\ l_path l = ["Hour-of-Day"] /\ l_str l = "$\mathrm{Hour \, of \, Day}$".
Proof. eexists. repeat split. Qed.
(** a date's path: small letters, dashes for blanks *)
Lemma lower_keeps k s : is_letter k = false -> has_char k (lower s) = has_char k s.
Proof.
  intro K. induction s as [|c s IH]; cbn [lower has_char]; [reflexivity|]. rewrite IH. f_equal. exact (title_char k c true K).
Qed.
Lemma lower_all c s : is_upper c = true -> has_char c (lower s) = false.
Proof.
  intro U. induction s as [|d s IH]; cbn [lower has_char]; [reflexivity|]. rewrite IH, orb_false_r.
  clear IH s. apply Ascii.eqb_neq. intros ->. revert U. destruct d as [[|] [|] [|] [|] [|] [|] [|] [|]]; vm_compute; discriminate.
Qed.
Theorem C169_datetime_path : forall kind descr, has_char "/" kind = false -> kind <> "" -> kind <> "." ->
  exists p, l_path (datetime_label kind descr) = [p] /\ has_char " " p = false /\ (forall c, is_upper c = true -> has_char c p = false) /\
            (has_char " " kind = false -> same_letters kind p).
Proof.
  intros kind descr H N D. exists (replace " " "-" (lower kind)). cbn [datetime_label l_path].
  assert (R : forall s, String.length (replace " " "-" s) = String.length s).
  { intro s. unfold replace. induction s as [|c s IH]; [reflexivity|]. cbn [replace_go]. destruct (String.prefix " " (String c s)); cbn; rewrite IH; reflexivity. }
  assert (Rid : forall s, has_char " " s = false -> replace " " "-" s = s) by (intros s X; exact (replace_absent " " "-" s X)).
  assert (Ll : forall s, String.length (lower s) = String.length s) by (induction s as [|c s IH]; cbn; congruence).
  split; [|split; [|split]].
  - apply mkpath_single.
    + apply replace_free; [reflexivity|]. rewrite lower_keeps by reflexivity. exact H.
    + intro E. assert (L := f_equal String.length E). rewrite R, Ll in L. destruct kind; [congruence|discriminate].
    + intro E. destruct kind as [|c [|c' r]]; [congruence| |]; [|assert (L := f_equal String.length E); rewrite R, Ll in L; discriminate].
      cbn [lower] in E. destruct (ascii_dec (lower_char c) " ") as [S|S]; [rewrite S in E; discriminate|].
      rewrite Rid in E by (cbn [has_char]; rewrite orb_false_r; apply Ascii.eqb_neq; congruence). injection E as E.
      revert D E. clear. destruct c as [[|] [|] [|] [|] [|] [|] [|] [|]]; vm_compute; congruence.
  - apply replace_removes. reflexivity.
  - intros c U. apply replace_free; [|apply lower_all, U]. cbn [has_char]. rewrite orb_false_r. apply Ascii.eqb_neq. intros ->. discriminate.
  - intro B. rewrite Rid by (rewrite lower_keeps by reflexivity; exact B). apply lower_same. symmetry.
    assert (LL : forall s, lower (lower s) = lower s); [|apply LL].
    clear. induction s as [|c s IH]; cbn [lower]; [reflexivity|]. rewrite IH. f_equal. destruct c as [[|] [|] [|] [|] [|] [|] [|] [|]]; reflexivity.
Qed.
(** Refuted: "different dates have different paths" and "a date's path is one file name". *)
Theorem C169_datetime_paths_refuted :
  (exists a b, a <> b /\ l_path (datetime_label a None) = l_path (datetime_label b None) /\ l_str (datetime_label a None) <> l_str (datetime_label b None)) /\
  (exists a, l_path (datetime_label a None) = ["day"; "month"]).
Proof. split; [exists "Day Of Year", "day-of year"; repeat split; discriminate|exists "Day/Month"; reflexivity]. Qed.
(** the start of the year *)
Theorem C169_january : forall descr, l_path (january_label descr) = ["January-1st-of-Year"] /\
  l_str (january_label descr) = with_description descr "$\mathrm{January \; 1^{st} \; of \; Year}$" /\ has_char " " (path_str (l_path (january_label descr))) = false.
Proof. intro descr. repeat split. Qed.

(* ------------------------------------------------------------ C170 *)
(** Specification: the TeX of a species, looked up by its title-cased name. *)
Definition species_tex (s t : string) : Prop := In (s, t) trans_species \/ (~ In s (map fst trans_species) /\ t = s).
Lemma get_species s : species_tex s (Labels.get trans_species s s).
Proof.
  assert (G : forall tb, (exists t, assoc s tb = Some t /\ In (s, t) tb) \/ (assoc s tb = None /\ ~ In s (map fst tb))).
  { induction tb as [|[a b] tb IH]; [right; cbn; tauto|]. cbn [assoc]. destruct (String.eqb_spec a s) as [->|N]; [left; exists b; cbn; auto|].
    destruct IH as [(t & A & B)|[A B]]; [left; exists t; cbn; auto|right; split; [exact A|cbn; tauto]]. }
  unfold Labels.get. destruct (G trans_species) as [(t & A & B)|[A B]]; rewrite A; [left; exact B|right; auto].
Qed.
Theorem C170_abundance_says : forall sp ref pct photo descr, has_char "/" sp = false -> has_char "/" ref = false ->
  exists num den, species_tex (title sp) num /\ species_tex (title ref) den /\
  let l := abundance_label sp ref pct photo descr in
  let ratio := "\mathrm{" ++ num ++ "}/\mathrm{" ++ den ++ "}" in
  l_tex l = (if photo then ratio ++ ":" ++ ratio ++ "_\mathrm{photo}" else ratio) /\
  l_units l = Some (if pct then "\%" else "\#") /\
  l_path l = [title sp ++ "-OV-" ++ title ref ++ (if photo then "_photospheric-ratio" else "")] /\
  l_str l = with_description descr ("$" ++ l_tex l ++ " \; \left[" ++ (if pct then "\%" else "\#") ++ "\right]$").
Proof.
  intros sp ref pct photo descr S R. exists (Labels.get trans_species (title sp) (title sp)), (Labels.get trans_species (title ref) (title ref)).
  split; [apply get_species|]. split; [apply get_species|]. cbv zeta. unfold abundance_label. cbn [l_tex l_units l_path l_str]. repeat split.
  apply mkpath_single.
  - rewrite !has_char_app, !title_keeps, S, R by reflexivity. destruct photo; reflexivity.
  - intro E. assert (L := f_equal String.length E). rewrite !slen_app in L. cbn in L. lia.
  - intro E. assert (L := f_equal String.length E). rewrite !slen_app in L. cbn in L. lia.
Qed.
(** The normalised and the plain ratio of any two species have different paths and different TeX. *)
Theorem C170_normalised_distinct : forall sp ref p q d e, has_char "/" sp = false -> has_char "/" ref = false ->
  l_path (abundance_label sp ref p true d) <> l_path (abundance_label sp ref q false e) /\
  l_tex (abundance_label sp ref p true d) <> l_tex (abundance_label sp ref q false e).
Proof.
  intros sp ref p q d e S R. split.
  - destruct (C170_abundance_says sp ref p true d S R) as (? & ? & _ & _ & _ & _ & E & _).
    destruct (C170_abundance_says sp ref q false e S R) as (? & ? & _ & _ & _ & _ & F & _). rewrite E, F. intro G.
    injection G as G. apply sapp_inj_l in G. apply (sapp_inj_l "-OV-") in G. apply sapp_inj_l in G. discriminate.
  - unfold abundance_label. cbn [l_tex]. intro G. assert (L := f_equal String.length G). rewrite !slen_app in L. cbn in L. lia.
Qed.
(** Abundances with the same path have the same species and the same reference, if no name holds a dash or an underscore. *)
Theorem C170_paths_tell_species : forall sp ref p n d sp' ref' p' n' d',
  Forall (fun s => has_char "/" s = false /\ has_char "-" s = false /\ has_char "_" s = false) [sp; ref; sp'; ref'] ->
  l_path (abundance_label sp ref p n d) = l_path (abundance_label sp' ref' p' n' d') -> title sp = title sp' /\ title ref = title ref' /\ n = n'.
Proof.
  intros sp ref p n d sp' ref' p' n' d' H E. rewrite !Forall_cons_iff in H.
  destruct H as ((S1 & S2 & S3) & (R1 & R2 & R3) & (S1' & S2' & S3') & (R1' & R2' & R3') & _).
  destruct (C170_abundance_says sp ref p n d S1 R1) as (? & ? & _ & _ & _ & _ & F & _).
  destruct (C170_abundance_says sp' ref' p' n' d' S1' R1') as (? & ? & _ & _ & _ & _ & F' & _). rewrite F, F' in E. clear F F'.
  assert (G : title sp ++ String "-" ("OV-" ++ title ref ++ (if n then "_photospheric-ratio" else "")) =
              title sp' ++ String "-" ("OV-" ++ title ref' ++ (if n' then "_photospheric-ratio" else ""))) by exact (f_equal (fun l => List.hd EmptyString l) E).
  apply first_sep in G; [|rewrite title_keeps by reflexivity; assumption..]. destruct G as [G1 G2]. apply (sapp_inj_l "OV-") in G2. split; [exact G1|].
  destruct n, n'.
  - split; [|reflexivity]. exact (sapp_inj_r _ _ _ G2).
  - exfalso. rewrite sapp_nil_r in G2. assert (C := title_keeps "_" ref' eq_refl). rewrite <- G2, has_char_app, R3' in C. cbn in C. rewrite orb_true_r in C. discriminate.
  - exfalso. rewrite sapp_nil_r in G2. assert (C := title_keeps "_" ref eq_refl). rewrite G2, has_char_app, R3 in C. cbn in C. rewrite orb_true_r in C. discriminate.
  - rewrite !sapp_nil_r in G2. auto.
Qed.
Example iron_over_oxygen : l_str (abundance_label "fe" "o" false true None) =
  "$\mathrm{\mathrm{Fe}}/\mathrm{\mathrm{O}}:\mathrm{\mathrm{Fe}}/\mathrm{\mathrm{O}}_\mathrm{photo} \; \left[\#\right]$" /\
  l_path (abundance_label "fe" "o" false true None) = ["Fe-OV-O_photospheric-ratio"].
Proof. repeat split. Qed.
(** Refuted: "a label in percent does not overwrite the plain one's file". *)
Theorem C170_percent_path_refuted : forall sp ref n d, l_path (abundance_label sp ref true n d) = l_path (abundance_label sp ref false n d) /\
  l_units (abundance_label sp ref true n d) <> l_units (abundance_label sp ref false n d).
Proof. intros. split; [reflexivity|discriminate]. Qed.
(** Refuted: "every known species is printed by its TeX": the small-letter names (protons, alphas, electrons) are capitalised before they are looked up. *)
Theorem C170_known_species_refuted :
  forall s, In s ["e"; "a"; "a1"; "a2"; "p"; "p_bimax"; "p1"; "p2"; "dv"] ->
  In s (map fst trans_species) /\ Labels.get trans_species (title s) (title s) = title s /\ title s <> Labels.get trans_species s s.
Proof. intros s H. cbn in H. repeat destruct H as [<-|H]; try contradiction; (split; [cbn; tauto|split; [reflexivity|discriminate]]). Qed.

(* ------------------------------------------------------------ C171 *)
(** Specification: a decimal integer with an optional sign. *)
Definition digit (c : ascii) : Prop := In c (list_ascii_of_string "0123456789").
Definition integer_text (s : string) : Prop :=
  exists sign ds, s = sign ++ ds /\ (sign = "" \/ sign = "+" \/ sign = "-") /\ ds <> "" /\ all_chars digit ds.
Lemma digit_spec c : (Nat.leb 48 (nat_of_ascii c) && Nat.leb (nat_of_ascii c) 57) = true <-> digit c.
Proof.
  unfold digit. split.
  - destruct c as [[|] [|] [|] [|] [|] [|] [|] [|]]; vm_compute; try discriminate; intros _; tauto.
  - cbn [list_ascii_of_string In]. intro H. repeat destruct H as [<-|H]; try reflexivity. contradiction.
Qed.
Lemma all_digits_spec s : all_digits s = true <-> all_chars digit s.
Proof.
  induction s as [|c s IH]; cbn [all_digits all_chars]; [tauto|]. rewrite andb_true_iff, digit_spec, IH. reflexivity.
Qed.
Lemma is_int_spec s : is_int s = true <-> integer_text s.
Proof.
  split.
  - intro H. destruct s as [|c r]; [discriminate|]. cbn [is_int] in H.
    destruct (Ascii.eqb_spec c "+") as [->|N1]; [|destruct (Ascii.eqb_spec c "-") as [->|N2]]; cbn [orb] in H.
    + apply andb_prop in H as [H1 H2]. exists "+", r. split; [reflexivity|]. split; [tauto|]. split; [intros ->; discriminate|apply all_digits_spec, H2].
    + apply andb_prop in H as [H1 H2]. exists "-", r. split; [reflexivity|]. split; [tauto|]. split; [intros ->; discriminate|apply all_digits_spec, H2].
    + exists "", (String c r). split; [reflexivity|]. split; [tauto|]. split; [discriminate|apply all_digits_spec, H].
  - intros (sg & ds & -> & S & N & D). assert (D' := proj2 (all_digits_spec ds) D). destruct ds as [|c r]; [congruence|].
    destruct S as [->|[->| ->]]; cbn [append is_int]; [|cbn [Ascii.eqb orb]; cbn; exact D'|cbn; exact D'].
    destruct (Ascii.eqb_spec c "+") as [->|N1]; [discriminate D'|]. destruct (Ascii.eqb_spec c "-") as [->|N2]; [discriminate D'|]. exact D'.
Qed.
(** An ion with its charge given as text: which charges are accepted. *)
Theorem C171_charges : forall sp s descr,
  ((exists l, ion sp (ChStr s) descr = Ok l) <-> integer_text s \/ s = "i" \/ s = "j") /\
  (forall e, ion sp (ChStr s) descr = Err e -> e = ValueError).
Proof.
  intros sp s descr. unfold ion, ion_label. rewrite <- is_int_spec. destruct (is_int s) eqn:E; cbn [negb andb].
  - split; [|discriminate]. split; eauto.
  - destruct (mem_str s ["i"; "j"]) eqn:F; cbn [negb].
    + split; [|discriminate]. split; [|eauto]. intros _. apply mem_str_In in F. cbn in F. intuition.
    + split; [|congruence]. split; [intros [l H]; discriminate|]. intros [H|H]; [discriminate|]. exfalso.
      assert (T : mem_str s ["i"; "j"] = true) by (apply mem_str_In; cbn; intuition). congruence.
Qed.
(** what an accepted ion says; p and m stand for the signs in its path *)
Definition sign_free (s t : string) : Prop :=
  (exists ds, all_chars digit ds /\ ((s = ds /\ t = ds) \/ (s = "+" ++ ds /\ t = "p" ++ ds) \/ (s = "-" ++ ds /\ t = "m" ++ ds)))
  \/ ((s = "i" \/ s = "j") /\ t = s).
Lemma digits_no c s : ~ digit c -> all_chars digit s -> has_char c s = false.
Proof. intros N H. exact (all_chars_no digit c s N H). Qed.
Lemma replace_head c k new s : replace (String c "") new (String k s) = (if Ascii.eqb c k then new else String k "") ++ replace (String c "") new s.
Proof.
  unfold replace. cbn [replace_go String.prefix]. destruct (Ascii.eqb_spec c k) as [->|N].
  - destruct (ascii_dec k k) as [_|]; [|congruence]. replace (String.prefix "" s) with true by (destruct s; reflexivity). reflexivity.
  - destruct (ascii_dec c k); [congruence|]. reflexivity.
Qed.
Lemma sign_free_spec s : integer_text s \/ s = "i" \/ s = "j" -> sign_free s (replace "-" "m" (replace "+" "p" s)).
Proof.
  intros [(sg & ds & -> & S & N & D)|H].
  - left. exists ds. split; [exact D|]. assert (P : has_char "+" ds = false) by (apply digits_no; [cbn; intuition discriminate|exact D]).
    assert (M : has_char "-" ds = false) by (apply digits_no; [cbn; intuition discriminate|exact D]).
    destruct S as [->|[->| ->]]; cbn [append].
    + left. split; [reflexivity|]. rewrite (replace_absent "+" "p" ds P). exact (replace_absent "-" "m" ds M).
    + right; left. split; [reflexivity|]. rewrite (replace_head "+" "+" "p" ds). cbn [Ascii.eqb Bool.eqb append].
      rewrite (replace_absent "+" "p" ds P), (replace_head "-" "p" "m" ds). cbn [Ascii.eqb Bool.eqb append].
      rewrite (replace_absent "-" "m" ds M). reflexivity.
    + right; right. split; [reflexivity|]. rewrite (replace_head "+" "-" "p" ds). cbn [Ascii.eqb Bool.eqb append].
      rewrite (replace_absent "+" "p" ds P), (replace_head "-" "-" "m" ds). cbn [Ascii.eqb Bool.eqb append].
      rewrite (replace_absent "-" "m" ds M). reflexivity.
  - right. split; [exact H|]. destruct H as [-> | ->]; reflexivity.
Qed.
Lemma sign_free_no k s t : sign_free s t -> ~ digit k -> k <> "p"%char -> k <> "m"%char -> k <> "i"%char -> k <> "j"%char -> has_char k t = false.
Proof.
  intros H D P M Ii J. destruct H as [(ds & A & [[_ ->]|[[_ ->]|[_ ->]]])|[[->| ->] ->]]; cbn [append has_char];
    rewrite ?(digits_no k ds D A), ?orb_false_r; try reflexivity; apply Ascii.eqb_neq; assumption.
Qed.
Lemma sign_free_inj s t s' t' : sign_free s t -> sign_free s' t' -> t = t' -> s = s'.
Proof.
  assert (X : forall ds c r, all_chars digit ds -> ds = String c r -> digit c) by (intros [|d ds] c r A E; [discriminate|]; injection E as <- <-; exact (proj1 A)).
  intros H H' E.
  destruct H as [(ds & A & [[-> ->]|[[-> ->]|[-> ->]]])|[[->| ->] ->]]; destruct H' as [(ds' & A' & [[-> ->]|[[-> ->]|[-> ->]]])|[[->| ->] ->]];
    cbn [append] in E; try reflexivity; try congruence; try discriminate;
    exfalso; try (assert (Y := X _ _ _ A E)); try (assert (Y := X _ _ _ A' (eq_sym E))); cbn in Y; intuition discriminate.
Qed.
Theorem C171_ion_says : forall sp s descr l, has_char "/" sp = false -> ion sp (ChStr s) descr = Ok l ->
  l_tex l = "{" ++ title sp ++ "}^{" ++ s ++ "}" /\ l_units l = Some "\#" /\
  l_str l = with_description descr ("$" ++ l_tex l ++ " \; \left[\#\right]$") /\
  exists t, sign_free s t /\ l_path l = [title sp ++ "_" ++ t].
Proof.
  intros sp s descr l S H. assert (C := proj1 (proj1 (C171_charges sp s descr)) (ex_intro _ l H)).
  unfold ion, ion_label in H. destruct (_ && _); [discriminate|]. injection H as <-. cbn [l_tex l_units l_str l_path]. repeat split.
  exists (replace "-" "m" (replace "+" "p" s)). assert (F := sign_free_spec s C). split; [exact F|]. apply mkpath_single.
  - rewrite !has_char_app, title_keeps, S by reflexivity. cbn [orb has_char Ascii.eqb Bool.eqb]. apply (sign_free_no _ s _ F); try discriminate. cbn. intuition discriminate.
  - intro E. assert (L := f_equal String.length E). rewrite !slen_app in L. cbn in L. lia.
  - intro E. destruct (title sp) as [|c r]; [discriminate|]. assert (L := f_equal String.length E). cbn [append String.length] in L. rewrite !slen_app in L. cbn in L. lia.
Qed.
(** Ions with one path are the same species (title-cased) with the same charge. *)
Theorem C171_ions_distinct : forall sp s d l sp' s' d' l', has_char "/" sp = false -> has_char "/" sp' = false ->
  ion sp (ChStr s) d = Ok l -> ion sp' (ChStr s') d' = Ok l' -> l_path l = l_path l' -> title sp = title sp' /\ s = s'.
Proof.
  intros sp s d l sp' s' d' l' S S' H H' E.
  destruct (C171_ion_says _ _ _ _ S H) as (_ & _ & _ & t & F & P). destruct (C171_ion_says _ _ _ _ S' H') as (_ & _ & _ & t' & F' & P').
  rewrite P, P' in E. assert (G : title sp ++ String "_" t = title sp' ++ String "_" t') by exact (f_equal (fun l => List.hd EmptyString l) E).
  apply last_sep in G; [|apply (sign_free_no _ _ _ F)|apply (sign_free_no _ _ _ F')]; try discriminate; try (cbn; intuition discriminate).
  destruct G as [G1 G2]. split; [exact G1|]. exact (sign_free_inj _ _ _ _ F F' G2).
Qed.
(** The ratio of two ions is a pure number. *)
Theorem C171_ratio : forall sp s d l sp' s' d' l' descr, has_char "/" sp = false -> has_char "/" sp' = false ->
  ion sp (ChStr s) d = Ok l -> ion sp' (ChStr s') d' = Ok l' ->
  let r := charge_state_ratio l l' descr in
  l_units r = Some "\#" /\ l_tex r = l_tex l ++ "/" ++ l_tex l' /\
  exists p p', l_path l = [p] /\ l_path l' = [p'] /\ l_path r = [p ++ "-OV-" ++ p'].
Proof.
  intros sp s d l sp' s' d' l' descr S S' H H' r.
  destruct (C171_ion_says _ _ _ _ S H) as (T & U & _ & t & F & P). destruct (C171_ion_says _ _ _ _ S' H') as (T' & U' & _ & t' & F' & P').
  unfold r, charge_state_ratio. rewrite U, U'. cbn [String.eqb Ascii.eqb Bool.eqb l_units l_tex l_path]. repeat split.
  eexists _, _. split; [exact P|]. split; [exact P'|]. rewrite P, P'. cbn [path_str join]. apply mkpath_single.
  - rewrite !has_char_app, !title_keeps, S, S' by reflexivity. cbn [orb has_char Ascii.eqb Bool.eqb].
    rewrite (sign_free_no "/" _ _ F), (sign_free_no "/" _ _ F'); try discriminate; try (cbn; intuition discriminate).
  - intro E. assert (L := f_equal String.length E). rewrite !slen_app in L. cbn in L. lia.
  - intro E. assert (L := f_equal String.length E). rewrite !slen_app in L. cbn in L. lia.
Qed.
Example oxygen_ratio : exists l l', ion "o" (ChStr "+7") None = Ok l /\ ion "O" (ChStr "6") None = Ok l' /\ l_path l = ["O_p7"] /\
  l_str (charge_state_ratio l l' None) = "${O}^{+7}/{O}^{6} \; \left[\#\right]$" /\ l_path (charge_state_ratio l l' None) = ["O_p7-OV-O_6"].
Proof. eexists _, _. repeat split. Qed.
(** Refuted: "the usual notation of a charge, 6+, is accepted". *)
Theorem C171_usual_notation_refuted : forall sp d, ion sp (ChStr "6+") d = Err ValueError.
Proof. reflexivity. Qed.
(** Refuted: "an ion whose charge is given as a number has a path": its TeX can be read, its path cannot. *)
Theorem C171_integer_charge_refuted : forall sp z d, ion sp (ChInt z) d = Err AttributeError.
Proof. reflexivity. Qed.

(* ------------------------------------------------------------ C172 *)
Definition ssn_names : list string := ["M"; "M13"; "D"; "Y"; "NM"; "NM13"; "ND"; "NY"].
Lemma assoc_in (l : list (string * string)) k v : assoc k l = Some v -> In (k, v) l.
Proof. induction l as [|[a b] l IH]; cbn; [discriminate|]. destruct (String.eqb_spec a k) as [->|N]; [intro E; injection E as ->; auto|auto]. Qed.
Lemma assoc_none (l : list (string * string)) k : assoc k l = None <-> ~ In k (map fst l).
Proof.
  induction l as [|[a b] l IH]; cbn; [tauto|]. destruct (String.eqb_spec a k) as [->|N]; [split; [discriminate|tauto]|]. rewrite IH. tauto.
Qed.
(** the same kind whatever the case of its letters *)
Lemma upper_same s t : same_letters s t -> upper s = upper t.
Proof.
  induction 1 as [|c d s t H HS IH]; cbn [upper]; [reflexivity|]. f_equal; [|exact IH]. destruct H as [->|(n & [[A B]|[A B]])]; [reflexivity| |];
    (do 26 (destruct n as [|n]; [cbn in A, B; injection A as <-; injection B as <-; reflexivity|])); cbn in A; discriminate.
Qed.
Theorem C172_ssn_accepts : forall key descr,
  ((exists l, ssn_label key descr = Ok l) <-> exists k, In k ssn_names /\ upper key = k) /\
  (forall e, ssn_label key descr = Err e -> e = AssertionError) /\
  (forall key', same_letters key key' -> ssn_label key' descr = ssn_label key descr).
Proof.
  intros key descr. split; [|split].
  - unfold ssn_label. destruct (assoc (upper key) ssn_kinds) eqn:E.
    + split; [|eauto]. intros _. exists (upper key). split; [|reflexivity]. apply assoc_in in E. apply (in_map fst) in E. exact E.
    + split; [intros [l H]; discriminate|]. intros (k & I & U). exfalso. apply (proj1 (assoc_none _ _)) in E. apply E. rewrite U. exact I.
  - unfold ssn_label. destruct (assoc _ _); congruence.
  - intros key' S. unfold ssn_label. rewrite (upper_same _ _ S). reflexivity.
Qed.
(** The eight kinds have eight paths and eight texts. *)
Theorem C172_ssn_distinct : forall a b d l l', ssn_label a d = Ok l -> ssn_label b d = Ok l' -> l_path l = l_path l' \/ l_tex l = l_tex l' -> upper a = upper b /\ l = l'.
Proof.
  intros a b d l l' H H' E. unfold ssn_label in H, H'.
  destruct (assoc (upper a) ssn_kinds) as [x|] eqn:A; [|discriminate]. destruct (assoc (upper b) ssn_kinds) as [y|] eqn:B; [|discriminate].
  apply assoc_in in A, B. revert A B H H'. generalize (upper a) (upper b). intros ka kb A B H H'. cbn [ssn_kinds In] in A, B.
  repeat destruct A as [A|A]; try contradiction; injection A as <- <-; repeat destruct B as [B|B]; try contradiction; injection B as <- <-;
    try (split; [reflexivity|congruence]); exfalso; injection H as <-; injection H' as <-; destruct E as [E|E]; vm_compute in E; discriminate E.
Qed.
Theorem C172_ssn_says : forall key descr l, ssn_label key descr = Ok l -> l_units l = Some "\mathrm{\#}" /\ l_path l = [upper key ++ "ssn"] /\
  l_str l = with_description descr ("$" ++ l_tex l ++ " \; [\#]$").
Proof.
  intros key descr l H. unfold ssn_label in H. destruct (assoc (upper key) ssn_kinds) as [x|] eqn:A; [|discriminate]. apply assoc_in in A.
  revert H A. generalize (upper key). intros k H A. injection H as <-. cbn [l_units l_path l_str]. repeat split.
  cbn [ssn_kinds In] in A. repeat destruct A as [A|A]; try contradiction; injection A as <- _; reflexivity.
Qed.
Example ssn_smoothed : exists l, ssn_label "m13" None = Ok l /\ l_str l = "$\mathrm{13 \; Month \; Smoothed \; SSN} \; [\#]$" /\ l_path l = ["M13ssn"].
Proof. eexists. repeat split. Qed.
(** Cross-correlations: what is refused. *)
Theorem C172_xcorr_accepts : forall a b method short descr,
  (exists l, xcorr_label a b method short descr = Ok l) <-> a <> None /\ b <> None /\ (short = true -> method <> "").
Proof.
  intros [a|] [b|] method short descr; cbn [xcorr_label]; try (split; [intros [l H]; discriminate|intros (A & B & _); congruence]).
  destruct short; [|cbn [bind]; split; [intros _; repeat split; congruence|eauto]].
  destruct method as [|c r]; cbn [title title_go bind].
  - split; [intros [l H]; discriminate|intros (_ & _ & H); exfalso; apply H; reflexivity].
  - split; [intros _; repeat split; discriminate|eauto].
Qed.
Theorem C172_xcorr_errors : forall a b method short descr e, xcorr_label a b method short descr = Err e ->
  ((a = None \/ b = None) /\ e = TypeError) \/ (a <> None /\ b <> None /\ short = true /\ method = "" /\ e = IndexError).
Proof.
  intros [a|] [b|] method short descr e; cbn [xcorr_label]; try (intro H; injection H as <-; left; auto; fail).
  destruct short; [|discriminate]. destruct method as [|c r]; cbn [title title_go bind]; [|discriminate]. intro H. injection H as <-. right. repeat split; discriminate.
Qed.
(** The TeX of an accepted one: both operands, no blank, no doubled thin space. *)
Lemma replace_blanks s : has_char " " (replace " \, " "\," (replace " " " \, " s)) = false.
Proof.
  assert (G : forall s, replace " \, " "\," (replace " " " \, " s) = replace " " "\," s /\ True).
  { clear s. intro s. split; [|exact Logic.I]. induction s as [|c s IH]; [reflexivity|]. rewrite (replace_head " " c), (replace_head " " c "\,").
    destruct (Ascii.eqb_spec " " c) as [<-|N].
    - cbn [append]. unfold replace at 1. set (q := replace " " " \, " s) in *. cbn.
      replace (String.prefix "" q) with true by (destruct q; reflexivity). f_equal. f_equal. exact IH.
    - cbn [append]. unfold replace at 1. cbn [replace_go]. replace (String.prefix " \, " (String c (replace " " " \, " s))) with false; [f_equal; exact IH|].
      cbn [String.prefix]. destruct (ascii_dec " " c); [congruence|reflexivity]. }
  rewrite (proj1 (G s)). apply replace_removes. reflexivity.
Qed.
Lemma collapse_blank f : forall t, has_char " " t = false -> has_char " " (collapse f t) = false.
Proof.
  induction f as [|f IH]; intros t H; cbn [collapse]; [exact H|]. destruct (Labels.contains "\,\," t); [|exact H].
  apply IH, replace_free; [reflexivity|exact H].
Qed.
Theorem C172_xcorr_tex : forall a b method short descr l, xcorr_label a b method short descr = Ok l ->
  has_char " " (l_tex l) = false /\ Labels.contains "\,\," (l_tex l) = false /\ l_units l = Some "\#" /\ l_str l = with_description descr ("$" ++ l_tex l ++ " \; [\#]$").
Proof.
  intros [a|] [b|] method short descr l; try discriminate. cbn [xcorr_label].
  destruct (if short then _ else _) as [h|]; cbn [bind]; [|discriminate]. intro H. injection H as <-. cbn [l_tex l_units l_str]. repeat split.
  - apply collapse_blank, replace_blanks.
  - apply collapse_done. lia.
Qed.
(** Without blanks and thin spaces in the operands' TeX, it is quoted as it is, in its order. *)
Lemma collapse_id f t : Labels.contains "\,\," t = false -> collapse f t = t.
Proof. intro H. destruct f; cbn [collapse]; [reflexivity|]. rewrite H. reflexivity. Qed.
Lemma replace_blank_id new s : has_char " " s = false -> replace " \, " new s = s.
Proof.
  unfold replace. induction s as [|c s IH]; [reflexivity|]. cbn [replace_go has_char]. intro E. apply orb_false_elim in E as [E1 E2].
  replace (String.prefix " \, " (String c s)) with false; [rewrite IH by exact E2; reflexivity|]. cbn [String.prefix].
  destruct (ascii_dec " " c) as [<-|]; [discriminate|reflexivity].
Qed.
Theorem C172_xcorr_quotes : forall a b method descr, has_char " " method = false ->
  has_char " " (op_tex a) = false -> has_char " " (op_tex b) = false ->
  Labels.contains "\,\," ("\mathrm{{" ++ title method ++ "}}(" ++ op_tex a ++ "," ++ op_tex b ++ ")") = false ->
  exists l, xcorr_label (Some a) (Some b) method false descr = Ok l /\
  l_tex l = "\mathrm{{" ++ title method ++ "}}(" ++ op_tex a ++ "," ++ op_tex b ++ ")".
Proof.
  intros a b method descr M A B C. cbn [xcorr_label bind]. eexists. split; [reflexivity|]. cbn [l_tex].
  assert (S : has_char " " (("\mathrm{{" ++ title method ++ "}}") ++ "(" ++ op_tex a ++ "," ++ op_tex b ++ ")") = false).
  { rewrite !has_char_app, title_keeps, M, A, B by reflexivity. reflexivity. }
  rewrite (replace_absent " " " \, ") by exact S. rewrite replace_blank_id by exact S. unfold collapse_spaces. rewrite collapse_id; [rewrite !sapp_assoc; reflexivity|].
  rewrite !sapp_assoc. exact C.
Qed.
Example xcorr_example : exists l, xcorr_label (Some (Str "n_p")) (Some (Str "T")) "pearsonr" true None = Ok l /\ l_tex l = "\rho_{P}(n_p,T)" /\ l_path l = ["XcorrPearsonr-n_p-T"].
Proof. eexists. repeat split. Qed.
