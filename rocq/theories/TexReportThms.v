(** C215, C216: what a fit's annotation says about its parameters. *)
From Coq Require Import Reals List String Ascii Bool Arith ZArith Lia Lra DecimalString.
From Verif Require Import Py PyStr Labels MoreLabels TexInfo TexReport LabelsThms MoreLabelsThms TexInfoThms.
Import ListNotations.
Open Scope list_scope.
Open Scope string_scope.

(* ---------------------------------------------------------------- specification *)
(** Text that means what it says: none of the sequences that are read as parts of numbers, no line end, no dollar, as many braces opened as closed. *)
Definition quiet (s : string) : Prop :=
  (forall p, In p ["e+"; "e-"; "+0"; "-0"; "inf"; "\pm"] -> Labels.contains p s = false)
  /\ has_char "$" s = false /\ has_char newline s = false /\ count_char "{" s = count_char "}" s.
Definition digits (l : list nat) : Prop := forall d, In d l -> (d < 10)%nat.
(** A printed number: digits, the first of them not zero unless the number is 0 (which has no sign). *)
Definition printed (n : num) : Prop :=
  match n with Dec s => digits (sc_int s :: sc_frac s) /\ (sc_int s = 0%nat -> sc_neg s = false) | _ => True end.
(** "%.2f" of something not negative *)
Definition fixed (t : string) : Prop := t = "inf" \/ t = "nan" \/ all_chars (fun c => number_char c /\ c <> "-"%char \/ c = "."%char) t.
Definition infinity_sign (t : string) : string := if String.eqb t "inf" then "\infty" else t.
(** mantissa times a power of ten whose exponent has a sign and no leading zeros *)
Definition scientific (s : sci) : string :=
  show_mantissa s ++ " \times 10^{" ++ (if Z.ltb (sc_exp s) 0 then "-" else "+") ++ show_Z (Z.abs (sc_exp s)).
Definition value_text (n : num) : string :=
  match n with Dec s => scientific s ++ " }" | Nan => "nan " | Inf neg => (if neg then "-" else "") ++ "\infty " end.
Definition uncertainty_text (n : num) : string :=
  match n with Dec s => scientific s ++ "}" | Nan => "nan" | Inf neg => (if neg then "-" else "") ++ "\infty" end.
Definition math (x : string) : string := "$ " ++ x ++ " $".
Definition shown_parameter (p : string * (num * num)) : string :=
  math (fst p ++ " = " ++ value_text (fst (snd p)) ++ "\pm " ++ uncertainty_text (snd (snd p))).
Definition shown_chisq (r : report) : string :=
  math ("\chi^2_\nu = {" ++ infinity_sign (fst (rp_chisq r)) ++ "} \; \; \; \; \; \; \; \; \; \; \; \; \; \; \; \; \chi^2_{\nu;R} = {" ++ infinity_sign (snd (rp_chisq r)) ++ "}").
(** the second paragraph: number of points and chi-squares, as far as asked for and known *)
Definition statistics (o : options) (r : report) : list string :=
  ((if op_npts o then match rp_npts r with Some n => [math ("N_\mathrm{pts} = {" ++ show_Z (Z.of_nat n) ++ "}")] | None => [] end else [])
   ++ (if op_chisq o then [shown_chisq r] else []))%list.
Definition paragraphs (o : options) (r : report) (first : list string) : string :=
  join nl first ++ (match statistics o r with [] => "" | l => nl ++ nl ++ join nl l end)
  ++ (if op_rsq o then nl ++ math ("R^2 = " ++ rp_rsq r) else "").

(* ---------------------------------------------------------------- strings *)
Fixpoint last_in (cs s : string) : bool :=
  match s with "" => false | String c r => match r with "" => has_char c cs | _ => last_in cs r end end.
Definition first_in (cs s : string) : bool := match s with "" => false | String c _ => has_char c cs end.
Fixpoint init (s : string) : string := match s with "" => "" | String c r => match r with "" => "" | _ => String c (init r) end end.
Definition tail (s : string) : string := match s with "" => "" | String _ r => r end.
(** no occurrence of [old] can lie across the border between [a] and [b] *)
Definition cut (old a b : string) : Prop := last_in (init old) a = false \/ first_in (tail old) b = false.

Lemma init_app a u : u <> "" -> init (a ++ u) = (a ++ init u)%string.
Proof.
  intros H. induction a as [|c a IH]; [reflexivity|]. change (String c a ++ u)%string with (String c (a ++ u)%string).
  cbn [init]. rewrite IH. destruct a; [destruct u; [contradiction|reflexivity]|reflexivity].
Qed.
Lemma last_in_mono a x : a <> "" -> last_in (a ++ x) a = true.
Proof.
  intros H. assert (G : forall cs, (forall c, has_char c a = true -> has_char c cs = true) -> last_in cs a = true).
  { induction a as [|c a IH]; [contradiction|]. intros cs Hc. cbn [last_in]. destruct a as [|d a].
    - apply Hc. cbn. rewrite ascii_eqb_refl. reflexivity.
    - apply IH; [discriminate|]. intros e He. apply Hc. cbn [has_char] in *. rewrite He. apply orb_true_r. }
  apply G. intros c Hc. rewrite has_char_app, Hc. reflexivity.
Qed.
Lemma app_split_str a : forall b x y, (a ++ b = x ++ y)%string -> (exists u, x = (a ++ u)%string /\ b = (u ++ y)%string) \/ (exists u, u <> "" /\ a = (x ++ u)%string /\ y = (u ++ b)%string).
Proof.
  induction a as [|c a IH]; intros b x y E.
  - left. exists x. split; [reflexivity|exact E].
  - destruct x as [|d x]; [right; exists (String c a); split; [discriminate|split; [reflexivity|symmetry; exact E]]|].
    change (String c (a ++ b)%string = String d (x ++ y)%string) in E. assert (E1 : c = d) by congruence. assert (E2 : (a ++ b = x ++ y)%string) by congruence. subst d.
    destruct (IH _ _ _ E2) as [(u & -> & ->)|(u & N & -> & ->)]; [left; exists u; split; reflexivity|right; exists u; split; [exact N|split; reflexivity]].
Qed.
Lemma cut_prefix old a b : a <> "" -> cut old a b -> String.prefix old (a ++ b) = String.prefix old a.
Proof.
  intros NA C. destruct (String.prefix old a) eqn:E.
  - apply prefix_iff in E. destruct E as (r & ->). rewrite sapp_assoc. apply prefix_app.
  - destruct (String.prefix old (a ++ b)) eqn:E2; [|reflexivity]. exfalso. apply prefix_iff in E2. destruct E2 as (r & E2).
    apply app_split_str in E2. destruct E2 as [(u & E3 & E4)|(u & N & E3 & E4)].
    + destruct (string_dec u "") as [->|NU].
      * rewrite sapp_nil_r in E3. subst old. assert (X : String.prefix a a = true) by (apply prefix_iff; exists ""; rewrite sapp_nil_r; reflexivity). congruence.
      * destruct C as [C|C].
        -- rewrite E3, init_app in C by exact NU. rewrite last_in_mono in C by exact NA. discriminate.
        -- rewrite E3, E4 in C. destruct a as [|c a]; [contradiction|]. change (tail (String c a ++ u)) with (a ++ u)%string in C.
           destruct u as [|k u]; [contradiction|]. cbn [first_in] in C. change ((String k u ++ r)%string) with (String k (u ++ r)%string) in C. cbn [first_in] in C.
           rewrite has_char_app in C. cbn [has_char] in C. rewrite ascii_eqb_refl in C. cbn in C. rewrite orb_true_r in C. discriminate.
    + assert (X : String.prefix old a = true) by (apply prefix_iff; exists u; exact E3). congruence.
Qed.
Lemma replace_skip old n k : forall a b, String.length a = k -> replace_go old n (a ++ b) k = replace_go old n b 0.
Proof. induction k as [|k IH]; intros [|c a] b H; cbn in H; try discriminate; [reflexivity|]. cbn. apply IH. lia. Qed.
Lemma replace_hit old n x : old <> "" -> replace old n (old ++ x) = (n ++ replace old n x)%string.
Proof.
  intros H. destruct old as [|c old]; [contradiction|]. unfold replace. change (String c old ++ x)%string with (String c (old ++ x)%string). cbn [replace_go].
  change (String c (old ++ x)%string) with (String c old ++ x)%string. rewrite prefix_app. cbn [String.length Nat.pred]. f_equal. apply replace_skip. reflexivity.
Qed.
Lemma replace_miss old n c x : String.prefix old (String c x) = false -> replace old n (String c x) = String c (replace old n x).
Proof. intros H. unfold replace. cbn [replace_go]. rewrite H. reflexivity. Qed.
Lemma cut_tail old c a b : cut old (String c a) b -> cut old a b.
Proof. unfold cut. intros [H|H]; [|right; exact H]. left. cbn [last_in] in H. destruct a; [reflexivity|exact H]. Qed.
Lemma cut_suffix old u a b : cut old (u ++ a) b -> cut old a b.
Proof. induction u as [|c u IH]; intros H; [exact H|]. apply IH. eapply cut_tail. exact H. Qed.
Lemma replace_cut old n a b : old <> "" -> cut old a b -> replace old n (a ++ b) = (replace old n a ++ replace old n b)%string.
Proof.
  intros HO. remember (String.length a) as k eqn:E. revert a E. induction k as [k IH] using lt_wf_ind. intros a E C.
  destruct a as [|c a]; [reflexivity|]. destruct (String.prefix old (String c a)) eqn:P.
  - apply prefix_iff in P. destruct P as (r & P). rewrite P. rewrite sapp_assoc, !replace_hit by exact HO. rewrite sapp_assoc. f_equal.
    apply (IH (String.length r)); [|reflexivity|].
    + rewrite E. cbn. assert (L : String.length (String c a) = String.length (old ++ r)) by (rewrite P; reflexivity). cbn in L. rewrite L, slen_app. destruct old; [contradiction|cbn; lia].
    + rewrite P in C. exact (cut_suffix old old r b C).
  - pose proof (cut_prefix old (String c a) b ltac:(discriminate) C) as Q. rewrite P in Q. change (String c a ++ b)%string with (String c (a ++ b)%string) in *.
    rewrite !replace_miss by assumption. change (String c ?x ++ ?y)%string with (String c (x ++ y)%string). f_equal.
    apply (IH (String.length a)); [cbn in E; lia|reflexivity|exact (cut_tail _ _ _ _ C)].
Qed.
Lemma replace_none old n s : Labels.contains old s = false -> replace old n s = s.
Proof.
  induction s as [|c s IH]; intros H; [reflexivity|]. cbn [Labels.contains] in H. apply orb_false_elim in H. destruct H as [H1 H2].
  rewrite replace_miss by exact H1. rewrite IH by exact H2. reflexivity.
Qed.
Lemma contains_char c old s : has_char c old = true -> has_char c s = false -> Labels.contains old s = false.
Proof.
  intros H1 H2. destruct (Labels.contains old s) eqn:E; [|reflexivity]. apply contains_iff in E. destruct E as (a & b & ->).
  rewrite !has_char_app, H1 in H2. destruct (has_char c a); discriminate.
Qed.
Lemma split_skip sep k : forall a b, String.length a = k -> split_go sep (a ++ b) k = split_go sep b 0.
Proof. induction k as [|k IH]; intros [|c a] b H; cbn in H; try discriminate; [reflexivity|]. cbn. apply IH. lia. Qed.
Lemma split_hit sep x : sep <> "" -> split_str sep (sep ++ x) = "" :: split_str sep x.
Proof.
  intros H. destruct sep as [|c sep]; [contradiction|]. unfold split_str. change (String c sep ++ x)%string with (String c (sep ++ x)%string). cbn [split_go].
  change (String c (sep ++ x)%string) with (String c sep ++ x)%string. rewrite prefix_app. cbn [String.length Nat.pred]. f_equal. apply split_skip. reflexivity.
Qed.
Lemma split_prepend sep a b : Labels.contains sep a = false -> cut sep a b ->
  forall h t, split_str sep b = h :: t -> split_str sep (a ++ b) = (a ++ h)%string :: t.
Proof.
  induction a as [|c a IH]; intros HC C h t E; [exact E|]. cbn [Labels.contains] in HC. apply orb_false_elim in HC. destruct HC as [H1 H2].
  pose proof (cut_prefix sep (String c a) b ltac:(discriminate) C) as Q. rewrite H1 in Q.
  unfold split_str. change (String c a ++ b)%string with (String c (a ++ b)%string) in *. cbn [split_go]. rewrite Q.
  pose proof (IH H2 (cut_tail _ _ _ _ C) h t E) as X. unfold split_str in X. rewrite X. reflexivity.
Qed.
Lemma split_alone sep a : Labels.contains sep a = false -> split_str sep a = [a].
Proof.
  intros H. rewrite <- (sapp_nil_r a) at 1. rewrite (split_prepend sep a "" H) with (h := "") (t := []); [rewrite sapp_nil_r; reflexivity|right; reflexivity|reflexivity].
Qed.

(* ---------------------------------------------------------------- digits *)
Lemma nonneg_uint n : (0 <= n)%Z -> exists u, Z.to_int n = Decimal.Pos u /\ u <> Decimal.Nil /\ show_Z n = NilEmpty.string_of_uint u.
Proof.
  intros H. destruct n as [|p|p]; [exists (Decimal.D0 Decimal.Nil); repeat split; discriminate| |lia]. exists (Pos.to_uint p). split; [reflexivity|].
  assert (N : Pos.to_uint p <> Decimal.Nil). { intros E. destruct (to_int_not_nil (Z.pos p)) as [X _]. apply X. cbn. rewrite E. reflexivity. }
  split; [exact N|]. unfold show_Z. cbn. unfold NilZero.string_of_uint. destruct (Pos.to_uint p); [contradiction|reflexivity..].
Qed.
Lemma uint_digits u : all_chars digit (NilEmpty.string_of_uint u).
Proof. induction u; cbn; [exact Logic.I|..]; (split; [cbn; tauto|assumption]). Qed.
Lemma show_nat_digits n : (0 <= n)%Z -> all_chars digit (show_Z n).
Proof. intros H. destruct (nonneg_uint n H) as (u & _ & _ & ->). apply uint_digits. Qed.
(** a number from 10 on does not start with a zero *)
Lemma no_leading_zero n : (10 <= n)%Z -> first_in "0" (show_Z n) = false.
Proof.
  intros H. destruct n as [|p|p]; try lia. unfold show_Z. change (Z.to_int (Z.pos p)) with (Decimal.Pos (Pos.to_uint p)).
  assert (E : Decimal.unorm (Pos.to_uint p) = Pos.to_uint p).
  { pose proof (DecimalZ.to_of (Z.to_int (Z.pos p))) as T. rewrite DecimalZ.of_to in T. cbn in T. congruence. }
  assert (Z0 : Decimal.nzhead (Pos.to_uint p) <> Decimal.Nil).
  { intros Z. unfold Decimal.unorm in E. rewrite Z in E. pose proof (DecimalZ.of_to (Z.pos p)) as T. cbn in T. rewrite <- E in T. discriminate T. }
  assert (E2 : Decimal.nzhead (Pos.to_uint p) = Pos.to_uint p). { unfold Decimal.unorm in E. destruct (Decimal.nzhead (Pos.to_uint p)); [contradiction|exact E..]. }
  destruct (Pos.to_uint p) as [|u|u|u|u|u|u|u|u|u|u] eqn:U; try reflexivity; exfalso; [exact (Z0 eq_refl)|exact (DecimalFacts.nzhead_nonzero _ _ E2)].
Qed.
Lemma digits_text l : digits l -> all_chars digit (show_digits l).
Proof.
  induction l as [|d l IH]; intros H; [exact Logic.I|]. cbn [show_digits all_chars]. split; [|apply IH; intros x X; apply H; right; exact X].
  assert (D : (d < 10)%nat) by (apply H; left; reflexivity). do 10 (destruct d as [|d]; [cbn; tauto|]). lia.
Qed.
Lemma last_absent cs s : (forall c, has_char c cs = true -> has_char c s = false) -> last_in cs s = false.
Proof.
  induction s as [|c s IH]; intros H; [reflexivity|]. cbn [last_in]. destruct s as [|d s].
  - destruct (has_char c cs) eqn:E; [|reflexivity]. specialize (H c E). cbn in H. rewrite ascii_eqb_refl in H. discriminate.
  - apply IH. intros k K. specialize (H k K). cbn [has_char] in H. apply orb_false_elim in H. apply H.
Qed.
Lemma cut_first old a b : first_in (tail old) b = false -> cut old a b. Proof. intros H. right. exact H. Qed.
Lemma cut_char c old a b : init old = String c "" -> has_char c a = false -> cut old a b.
Proof.
  intros E H. left. rewrite E. apply last_absent. intros d D. cbn in D. rewrite orb_false_r in D. apply Ascii.eqb_eq in D. subst d. exact H.
Qed.

(* ---------------------------------------------------------------- powers of ten *)
Definition mantissa_char (c : ascii) : Prop := digit c \/ c = "."%char \/ c = "-"%char.
Lemma all_chars_app P a b : all_chars P a -> all_chars P b -> all_chars P (a ++ b).
Proof. induction a as [|c a IH]; intros H1 H2; [exact H2|]. destruct H1. split; auto. Qed.
Lemma all_chars_imp (P Q : ascii -> Prop) s : (forall c, P c -> Q c) -> all_chars P s -> all_chars Q s.
Proof. intros H. induction s as [|c s IH]; [auto|]. intros [A B]. split; auto. Qed.
Lemma mantissa_chars s : digits (sc_int s :: sc_frac s) -> all_chars mantissa_char (show_mantissa s).
Proof.
  intros H. unfold show_mantissa. apply all_chars_app; [destruct (sc_neg s); cbn; unfold mantissa_char; tauto|].
  apply all_chars_app; [apply (all_chars_imp digit); [unfold mantissa_char; tauto|]; apply digits_text; intros d [<-|[]]; apply H; left; reflexivity|].
  destruct (sc_frac s) as [|f l] eqn:E; [exact Logic.I|]. apply all_chars_app; [cbn; unfold mantissa_char; tauto|].
  apply (all_chars_imp digit); [unfold mantissa_char; tauto|]. apply digits_text. intros d D. apply H. right. exact D.
Qed.
Lemma mantissa_no c s : digits (sc_int s :: sc_frac s) -> ~ mantissa_char c -> has_char c (show_mantissa s) = false.
Proof. intros H N. exact (all_chars_no mantissa_char c _ N (mantissa_chars s H)). Qed.
Lemma not_mantissa c : In c (list_ascii_of_string "e+ \$=inf{}pm") -> ~ mantissa_char c.
Proof.
  intros H N. cbn in H. repeat destruct H as [<-|H]; try contradiction; (destruct N as [N|[N|N]]; [cbn in N; intuition discriminate|discriminate N|discriminate N]).
Qed.
Lemma contains_app_dash x y : first_in "0" y = false -> has_char "-" y = false -> Labels.contains "-0" x = false -> Labels.contains "-0" (x ++ y) = false.
Proof.
  intros H1 H2. induction x as [|c x IH]; intros H.
  - apply (contains_char "-"); [reflexivity|exact H2].
  - cbn [Labels.contains] in H. apply orb_false_elim in H. destruct H as [HA HB]. change (String c x ++ y)%string with (String c (x ++ y)%string). cbn [Labels.contains].
    rewrite (IH HB), orb_false_r. change (String c (x ++ y)%string) with (String c x ++ y)%string. transitivity (String.prefix "-0" (String c x)); [|exact HA].
    apply cut_prefix; [discriminate|]. right. exact H1.
Qed.
Lemma mantissa_no_minus_zero s : printed (Dec s) -> Labels.contains "-0" (show_mantissa s) = false.
Proof.
  intros [H N]. unfold show_mantissa. set (f := match sc_frac s with [] => "" | f => "." ++ show_digits f end).
  assert (F1 : has_char "-" f = false).
  { unfold f. destruct (sc_frac s) as [|a l] eqn:E; [reflexivity|]. rewrite has_char_app. cbn [has_char Ascii.eqb Bool.eqb orb].
    apply digits_no; [cbn; intuition discriminate|]. apply digits_text. intros d D. apply H. right. exact D. }
  assert (F2 : first_in "0" f = false) by (unfold f; destruct (sc_frac s); reflexivity).
  rewrite <- sapp_assoc. apply contains_app_dash; [exact F2|exact F1|]. clear f F1 F2.
  assert (D : (sc_int s < 10)%nat) by (apply H; left; reflexivity). destruct (sc_neg s).
  - destruct (sc_int s) as [|d]; [discriminate (N eq_refl)|]. do 9 (destruct d as [|d]; [reflexivity|]). lia.
  - destruct (sc_int s) as [|d]; [reflexivity|]. do 9 (destruct d as [|d]; [reflexivity|]). lia.
Qed.
(** a number with its power of ten, the brace still open *)
Definition open_text (n : num) : string := match n with Dec s => scientific s | _ => show_num n end.
Lemma pow10_num n : printed n -> pow10 (show_num n) = open_text n.
Proof.
  destruct n as [s| |neg]; intros HP; [|reflexivity|destruct neg; reflexivity]. pose proof (proj1 HP) as HD.
  cbn [show_num open_text]. unfold scientific, show_exp. set (m := show_mantissa s). set (y := show_Z (Z.abs (sc_exp s))).
  assert (Y : all_chars digit y) by (apply show_nat_digits; lia).
  assert (M : forall c, In c (list_ascii_of_string "e+ \$=inf{}pm") -> has_char c m = false) by (intros c Hc; apply mantissa_no; [exact HD|apply not_mantissa, Hc]).
  assert (M0 : Labels.contains "-0" m = false) by (apply mantissa_no_minus_zero; exact HP).
  assert (Yn : forall c, ~ digit c -> has_char c y = false) by (intros c Hc; apply digits_no; assumption).
  assert (Ye : has_char "e" y = false) by (apply Yn; cbn; intuition discriminate).
  assert (Yp : has_char "+" y = false) by (apply Yn; cbn; intuition discriminate).
  assert (Ym : has_char "-" y = false) by (apply Yn; cbn; intuition discriminate).
  assert (Me : has_char "e" m = false) by (apply M; cbn; tauto). assert (Mp : has_char "+" m = false) by (apply M; cbn; tauto).
  assert (PAD : (exists x, (if Z.ltb (Z.abs (sc_exp s)) 10 then "0" else "") ++ y = x /\ has_char "e" x = false /\ has_char "+" x = false /\ has_char "-" x = false
    /\ (forall c, has_char c y = false -> replace (String c "0") (String c "") (String c x) = String c y))%string).
  { eexists. split; [reflexivity|]. destruct (Z.ltb_spec (Z.abs (sc_exp s)) 10) as [L|L].
    - cbn [append]. change (String "0" y) with ("0" ++ y)%string. rewrite !has_char_app, Ye, Yp, Ym. split; [reflexivity|]. split; [reflexivity|]. split; [reflexivity|].
      intros c Hc. change (String c ("0" ++ y)%string) with (String c "0" ++ y)%string. rewrite replace_hit by discriminate.
      rewrite replace_none; [reflexivity|]. apply (contains_char c); [cbn; rewrite ascii_eqb_refl; reflexivity|exact Hc].
    - cbn [append]. split; [exact Ye|]. split; [exact Yp|]. split; [exact Ym|]. intros c Hc. rewrite replace_miss.
      + rewrite replace_none; [reflexivity|]. apply (contains_char c); [cbn; rewrite ascii_eqb_refl; reflexivity|exact Hc].
      + pose proof (no_leading_zero (Z.abs (sc_exp s)) L) as F. fold y in F. cbn [String.prefix]. destruct (ascii_dec c c); [|contradiction].
        destruct y as [|k y']; [reflexivity|]. cbn [first_in has_char] in F. rewrite orb_false_r in F.
        destruct (String.prefix "0" (String k y')) eqn:Q; [|reflexivity]. apply prefix_iff in Q. destruct Q as (q & Q). change ("0" ++ q)%string with (String "0" q) in Q.
        assert (k = "0"%char) by congruence. subst k. discriminate F. }
  destruct PAD as (x & EX & Xe & Xp & Xm & HX). rewrite EX. unfold pow10.
  destruct (Z.ltb (sc_exp s) 0).
  - (* negative exponent *)
    rewrite (replace_none "e+"); [|apply (contains_char "+"); [reflexivity|]; rewrite !has_char_app, Mp, Xp; reflexivity].
    rewrite (replace_cut "e-") by (discriminate || (eapply cut_char; [reflexivity|exact Me])). rewrite (replace_none "e-" _ m); [|apply (contains_char "e"); [reflexivity|exact Me]].
    change ("e" ++ "-" ++ x)%string with ("e-" ++ x)%string. rewrite replace_hit by discriminate. rewrite (replace_none "e-" _ x); [|apply (contains_char "e"); [reflexivity|exact Xe]].
    rewrite (replace_none "+0"); [|apply (contains_char "+"); [reflexivity|]; rewrite !has_char_app, Mp, Xp; reflexivity].
    rewrite (replace_cut "-0") by (discriminate || (apply cut_first; reflexivity)). rewrite (replace_none "-0" _ m M0).
    change (" \times 10^{-" ++ x)%string with (" \times 10^{" ++ String "-" x)%string.
    rewrite (replace_cut "-0") by (discriminate || (eapply cut_char; reflexivity)). rewrite (HX "-"%char Ym). reflexivity.
  - rewrite (replace_cut "e+") by (discriminate || (eapply cut_char; [reflexivity|exact Me])). rewrite (replace_none "e+" _ m); [|apply (contains_char "e"); [reflexivity|exact Me]].
    change ("e" ++ "+" ++ x)%string with ("e+" ++ x)%string. rewrite replace_hit by discriminate. rewrite (replace_none "e+" _ x); [|apply (contains_char "e"); [reflexivity|exact Xe]].
    rewrite (replace_cut "e-") by (discriminate || (eapply cut_char; [reflexivity|exact Me])). rewrite (replace_none "e-" _ m); [|apply (contains_char "e"); [reflexivity|exact Me]].
    rewrite (replace_none "e-"); [|apply (contains_char "-"); [reflexivity|]; rewrite !has_char_app, Xm; reflexivity].
    rewrite (replace_cut "+0") by (discriminate || (eapply cut_char; [reflexivity|exact Mp])). rewrite (replace_none "+0" _ m); [|apply (contains_char "+"); [reflexivity|exact Mp]].
    change (" \times 10^{+" ++ x)%string with (" \times 10^{" ++ String "+" x)%string.
    rewrite (replace_cut "+0") by (discriminate || (eapply cut_char; reflexivity)). rewrite (HX "+"%char Yp).
    rewrite (replace_cut "-0") by (discriminate || (apply cut_first; reflexivity)). rewrite (replace_none "-0" _ m M0).
    rewrite (replace_none "-0"); [reflexivity|]. apply (contains_char "-"); [reflexivity|].
    change (replace "+0" "+" " \times 10^{") with " \times 10^{". rewrite has_char_app. cbn [has_char Ascii.eqb Bool.eqb orb]. exact Ym.
Qed.

(* ---------------------------------------------------------------- lines *)
Lemma replace_sep sep old n a b : old <> "" -> has_char sep old = false ->
  replace old n (a ++ String sep b) = (replace old n a ++ String sep (replace old n b))%string.
Proof.
  intros HO HS. rewrite replace_cut; [|exact HO|].
  - f_equal. rewrite replace_miss; [reflexivity|]. destruct old as [|c old]; [contradiction|]. cbn [String.prefix]. destruct (ascii_dec c sep) as [->|]; [|reflexivity].
    cbn [has_char] in HS. rewrite ascii_eqb_refl in HS. discriminate.
  - right. cbn [first_in]. destruct old as [|c old]; [contradiction|]. cbn [has_char] in HS. apply orb_false_elim in HS. apply HS.
Qed.
Lemma replace_join sep old n l : old <> "" -> has_char sep old = false ->
  replace old n (join (String sep "") l) = join (String sep "") (map (replace old n) l).
Proof.
  intros HO HS. induction l as [|x [|y l] IH]; [reflexivity|reflexivity|].
  change (join (String sep "") (x :: y :: l)) with (x ++ String sep (join (String sep "") (y :: l)))%string. rewrite replace_sep by assumption. rewrite IH. reflexivity.
Qed.
Lemma pow10_space a b : pow10 (a ++ String " " b) = (pow10 a ++ String " " (pow10 b))%string.
Proof. unfold pow10. rewrite !replace_sep by (discriminate || reflexivity). reflexivity. Qed.
Lemma pow10_join l : pow10 (join nl l) = join nl (map pow10 l).
Proof. unfold pow10, nl. rewrite !replace_join by (discriminate || reflexivity). rewrite !map_map. reflexivity. Qed.
(** nothing of a line is taken for a number *)
Definition calm (s : string) : Prop := forall p, In p ["e+"; "e-"; "+0"; "-0"] -> Labels.contains p s = false.
Lemma pow10_calm s : calm s -> pow10 s = s.
Proof. intros H. unfold pow10. rewrite !replace_none; try reflexivity; rewrite ?replace_none; try apply H; cbn; auto; rewrite ?replace_none; try apply H; cbn; auto; rewrite ?replace_none; try apply H; cbn; auto. Qed.
Lemma quiet_calm s : quiet s -> calm s.
Proof. intros [H _] p Hp. apply H. cbn in *. tauto. Qed.
Lemma close_balanced s : Labels.contains "\pm" s = false -> count_char "{" s = count_char "}" s -> close_line s = s.
Proof. intros H1 H2. unfold close_line. rewrite split_alone by exact H1. cbn [map join]. unfold close_brace. rewrite H2, Nat.ltb_irrefl. reflexivity. Qed.
Lemma contains_cut old a b : cut old a b -> Labels.contains old a = false -> Labels.contains old b = false -> Labels.contains old (a ++ b) = false.
Proof.
  intros C. induction a as [|c a IH]; intros H1 H2; [exact H2|]. cbn [Labels.contains] in H1. apply orb_false_elim in H1. destruct H1 as [H1 H1'].
  change (String c a ++ b)%string with (String c (a ++ b)%string). cbn [Labels.contains]. rewrite (IH (cut_tail _ _ _ _ C) H1' H2), orb_false_r.
  transitivity (String.prefix old (String c a)); [|exact H1]. change (String c (a ++ b)%string) with (String c a ++ b)%string. apply cut_prefix; [discriminate|exact C].
Qed.
Lemma count_absent c s : has_char c s = false -> count_char c s = 0%nat.
Proof. intros H. destruct (count_char c s) eqn:E; [reflexivity|]. assert (has_char c s = true) by (apply has_count; lia). congruence. Qed.
Lemma scientific_chars s : digits (sc_int s :: sc_frac s) ->
  all_chars (fun c => mantissa_char c \/ In c (list_ascii_of_string " \times 10^{+-")) (scientific s).
Proof.
  intros H. unfold scientific. apply all_chars_app; [apply (all_chars_imp mantissa_char); [tauto|apply mantissa_chars, H]|].
  apply all_chars_app; [cbn; tauto|]. apply all_chars_app; [destruct (Z.ltb _ 0); cbn; tauto|].
  apply (all_chars_imp digit); [unfold mantissa_char; tauto|]. apply show_nat_digits. lia.
Qed.
Lemma scientific_no c s : digits (sc_int s :: sc_frac s) -> In c (list_ascii_of_string "npf$}" ++ [newline])%list -> has_char c (scientific s) = false.
Proof.
  intros H Hc. refine (all_chars_no _ c _ _ (scientific_chars s H)). unfold mantissa_char, digit. cbn in Hc |- *.
  repeat destruct Hc as [<-|Hc]; try contradiction; intuition discriminate.
Qed.
Lemma open_one_brace s : digits (sc_int s :: sc_frac s) -> count_char "{" (scientific s) = 1%nat.
Proof.
  intros H. unfold scientific. rewrite !count_char_app. rewrite (count_absent "{" (show_mantissa s)) by (apply mantissa_no; [exact H|apply not_mantissa; cbn; tauto]).
  rewrite (count_absent "{" (show_Z _)) by (apply digits_no; [cbn; intuition discriminate|apply show_nat_digits; lia]). destruct (Z.ltb _ 0); reflexivity.
Qed.
Lemma open_no c n : printed n -> In c (list_ascii_of_string "p$}" ++ [newline])%list -> has_char c (open_text n) = false.
Proof.
  intros H Hc. destruct n as [s| |neg].
  - apply scientific_no; [exact (proj1 H)|]. cbn in *. tauto.
  - cbn in Hc. repeat destruct Hc as [<-|Hc]; try contradiction; reflexivity.
  - cbn in Hc. repeat destruct Hc as [<-|Hc]; try contradiction; destruct neg; reflexivity.
Qed.
Definition braces (n : num) : nat := match n with Dec _ => 1 | _ => 0 end.
Definition closing (n : num) : string := match n with Dec _ => "}" | _ => "" end.
Lemma open_braces n : printed n -> count_char "{" (open_text n) = braces n /\ count_char "}" (open_text n) = 0%nat.
Proof.
  intros H. split; [|apply count_absent; apply open_no; [exact H|cbn; tauto]].
  destruct n as [s| |neg]; [apply open_one_brace, H|reflexivity|destruct neg; reflexivity].
Qed.
Lemma closed n a b : printed n -> count_char "{" a = count_char "}" a -> count_char "{" b = 0%nat -> count_char "}" b = 0%nat ->
  close_brace (a ++ open_text n ++ b) = (a ++ open_text n ++ b ++ closing n)%string.
Proof.
  intros H A B1 B2. unfold close_brace. destruct (open_braces n H) as [E1 E2]. rewrite !count_char_app, A, E1, E2, B1, B2.
  destruct n as [s| |neg]; cbn [braces closing].
  - replace (Nat.ltb _ _) with true; [rewrite !sapp_assoc; reflexivity|]. symmetry. apply Nat.ltb_lt. lia.
  - rewrite Nat.ltb_irrefl || (replace (Nat.ltb _ _) with false; [|symmetry; apply Nat.ltb_ge; lia]). rewrite sapp_nil_r. reflexivity.
  - rewrite Nat.ltb_irrefl || (replace (Nat.ltb _ _) with false; [|symmetry; apply Nat.ltb_ge; lia]). rewrite sapp_nil_r. reflexivity.
Qed.
(** a parameter's line after the conversion *)
Definition converted (p : string * (num * num)) : string :=
  (fst p ++ " = " ++ open_text (fst (snd p)) ++ " " ++ closing (fst (snd p)) ++ "\pm " ++ open_text (snd (snd p)) ++ closing (snd (snd p)))%string.
Lemma popt_pow10 p : quiet (fst p) -> printed (fst (snd p)) -> printed (snd (snd p)) ->
  pow10 (popt_line p) = (fst p ++ " = " ++ open_text (fst (snd p)) ++ " \pm " ++ open_text (snd (snd p)))%string.
Proof.
  destruct p as [name [v u]]. cbn [fst snd]. intros Q HV HU. unfold popt_line. cbn [fst snd].
  change (" = " ++ show_num v ++ " \pm " ++ show_num u)%string with (String " " ("=" ++ String " " (show_num v ++ String " " ("\pm" ++ String " " (show_num u))))%string).
  rewrite !pow10_space, (pow10_calm name (quiet_calm _ Q)), (pow10_num v HV), (pow10_num u HU). reflexivity.
Qed.
Lemma popt_converted p : quiet (fst p) -> printed (fst (snd p)) -> printed (snd (snd p)) -> close_line (pow10 (popt_line p)) = converted p.
Proof.
  intros Q HV HU. rewrite popt_pow10 by assumption. destruct p as [name [v u]]. cbn [fst snd] in *. unfold converted. cbn [fst snd].
  assert (NP : forall n, printed n -> Labels.contains "\pm" (open_text n) = false) by (intros n Hn; apply (contains_char "p"); [reflexivity|apply open_no; [exact Hn|cbn; tauto]]).
  replace (name ++ " = " ++ open_text v ++ " \pm " ++ open_text u)%string with ((name ++ " = " ++ open_text v ++ " ") ++ "\pm" ++ " " ++ open_text u)%string
    by (rewrite !sapp_assoc; reflexivity).
  assert (A : Labels.contains "\pm" (name ++ " = " ++ open_text v ++ " ") = false).
  { apply contains_cut; [apply cut_first; reflexivity|apply Q; cbn; tauto|]. apply contains_cut; [left; reflexivity|reflexivity|].
    apply contains_cut; [apply cut_first; reflexivity|apply NP; exact HV|reflexivity]. }
  assert (B : Labels.contains "\pm" (" " ++ open_text u) = false) by (apply contains_cut; [left; reflexivity|reflexivity|apply NP; exact HU]).
  unfold close_line. rewrite (split_prepend "\pm" _ _ A) with (h := "") (t := [(" " ++ open_text u)%string]).
  - cbn [map join]. rewrite sapp_nil_r. destruct Q as (_ & _ & _ & Q).
    replace (name ++ " = " ++ open_text v ++ " ")%string with ((name ++ " = ") ++ open_text v ++ " ")%string by (rewrite !sapp_assoc; reflexivity).
    rewrite closed; [|exact HV|rewrite !count_char_app, Q; reflexivity|reflexivity|reflexivity].
    replace (" " ++ open_text u)%string with (" " ++ open_text u ++ "")%string by (rewrite sapp_nil_r; reflexivity).
    rewrite closed; [|exact HU|reflexivity|reflexivity|reflexivity]. rewrite !sapp_assoc. reflexivity.
  - left. assert (L : forall s, last_in "\p" (s ++ " ") = false).
    { intros s. induction s as [|c s IH]; [reflexivity|]. change (String c s ++ " ")%string with (String c (s ++ " ")%string). cbn [last_in]. destruct (s ++ " ")%string eqn:E; [destruct s; discriminate|exact IH]. }
    replace (name ++ " = " ++ open_text v ++ " ")%string with ((name ++ " = " ++ open_text v) ++ " ")%string by (rewrite !sapp_assoc; reflexivity). apply L.
  - rewrite split_hit by discriminate. rewrite split_alone by exact B. reflexivity.
Qed.

(* ---------------------------------------------------------------- the whole text *)
Lemma strip_id s : has_char "$" s = false -> strip_dollars s = s.
Proof. induction s as [|c s IH]; [reflexivity|]. cbn [has_char strip_dollars]. unfold dollar. destruct (Ascii.eqb "$" c) eqn:E.
  - apply Ascii.eqb_eq in E. subst c. discriminate.
  - intros H. apply orb_false_elim in H. rewrite IH by apply H. reflexivity.
Qed.
Lemma final_math s : s <> "" -> has_char "$" s = false -> final_line s = math s.
Proof. intros N H. unfold final_line. apply String.eqb_neq in N. rewrite N, strip_id by exact H. reflexivity. Qed.
Notation inf := (replace "inf" "\infty").
Lemma inf_space a b : inf (a ++ String " " b) = (inf a ++ String " " (inf b))%string.
Proof. apply replace_sep; [discriminate|reflexivity]. Qed.
Lemma inf_math s : inf (math s) = math (inf s).
Proof.
  unfold math. change ("$ " ++ s ++ " $")%string with ("$" ++ String " " (s ++ String " " "$"))%string. rewrite !inf_space. reflexivity.
Qed.
Lemma inf_open n : printed n -> inf (open_text n ++ closing n) = uncertainty_text n.
Proof.
  intros H. destruct n as [s| |neg]; [|reflexivity|destruct neg; reflexivity]. cbn [open_text closing uncertainty_text].
  apply replace_none. apply (contains_char "n"); [reflexivity|]. rewrite has_char_app, (scientific_no "n" s (proj1 H)) by (cbn; tauto). reflexivity.
Qed.
Lemma inf_value n : printed n -> inf (open_text n ++ String " " (closing n ++ "\pm")) = (value_text n ++ "\pm")%string.
Proof.
  intros H. rewrite inf_space. destruct n as [s| |neg]; [|reflexivity|destruct neg; reflexivity].
  cbn [open_text closing value_text]. rewrite replace_none; [rewrite !sapp_assoc; reflexivity|].
  apply (contains_char "n"); [reflexivity|apply scientific_no; [exact (proj1 H)|cbn; tauto]].
Qed.
Lemma shown_converted p : quiet (fst p) -> printed (fst (snd p)) -> printed (snd (snd p)) -> inf (final_line (converted p)) = shown_parameter p.
Proof.
  intros Q HV HU. destruct p as [name [v u]]. cbn [fst snd] in *. rewrite final_math.
  - rewrite inf_math. unfold shown_parameter. cbn [fst snd]. f_equal. unfold converted. cbn [fst snd].
    replace (name ++ " = " ++ open_text v ++ " " ++ closing v ++ "\pm " ++ open_text u ++ closing u)%string
      with (name ++ String " " ("=" ++ String " " ((open_text v ++ String " " (closing v ++ "\pm")) ++ String " " (open_text u ++ closing u))))%string.
    + rewrite (inf_space name), (inf_space "="), (inf_space (open_text v ++ _)), inf_value, inf_open by assumption.
      rewrite (replace_none "inf" _ name) by (apply Q; cbn; tauto). rewrite !sapp_assoc. reflexivity.
    + cbn [append]. rewrite !sapp_assoc. cbn [append]. rewrite !sapp_assoc. reflexivity.
  - unfold converted. cbn [fst snd]. destruct name; discriminate.
  - unfold converted. cbn [fst snd]. destruct Q as (_ & Q & _). rewrite !has_char_app, Q, !open_no by (assumption || (cbn; tauto)). destruct v, u; reflexivity.
Qed.

(** three line ends become two *)
Notation three := (replace (nl ++ nl ++ nl) (nl ++ nl)).
Definition block (l : list string) : Prop := forall x, In x l -> x <> "" /\ has_char newline x = false.
Lemma first_join l : l <> [] -> block l -> first_in (nl ++ nl) (join nl l) = false.
Proof.
  intros N B. destruct l as [|x l]; [contradiction|]. destruct (B x (or_introl eq_refl)) as [H1 H2]. destruct x as [|c x]; [contradiction|].
  assert (E : has_char c (nl ++ nl) = false). { cbn [has_char] in H2. apply orb_false_elim in H2. destruct H2 as [H2 _]. apply Ascii.eqb_neq in H2. unfold nl. cbn [has_char append].
    rewrite (proj2 (Ascii.eqb_neq c newline)) by congruence. reflexivity. }
  destruct l; exact E.
Qed.
Lemma three_line x : has_char newline x = false -> three x = x.
Proof. intros H. apply replace_none. apply (contains_char newline); [reflexivity|exact H]. Qed.
Lemma last_line x : has_char newline x = false -> last_in (nl ++ nl) x = false.
Proof. intros H. apply last_absent. intros c Hc. cbn in Hc. assert (c = newline). { destruct (Ascii.eqb_spec newline c); [congruence|]. rewrite (proj2 (Ascii.eqb_neq c newline)) in Hc by congruence. discriminate. } subst c. exact H. Qed.
Lemma three_block l : block l -> three (join nl l) = join nl l.
Proof.
  induction l as [|x [|y l] IH]; intros B; [reflexivity| |].
  - apply three_line. apply B. left. reflexivity.
  - assert (B' : block (y :: l)) by (intros z Z; apply B; right; exact Z). destruct (B x (or_introl eq_refl)) as [X1 X2].
    replace (join nl (x :: y :: l)) with ((x ++ nl) ++ join nl (y :: l))%string by (rewrite sapp_assoc; reflexivity). rewrite replace_cut; [|discriminate|right; apply (first_join (y :: l)); [discriminate|exact B']].
    rewrite IH by exact B'. f_equal. rewrite replace_cut; [|discriminate|left; apply last_line; exact X2]. rewrite (three_line x X2). reflexivity.
Qed.
Lemma join_app l k : l <> [] -> k <> [] -> join nl (l ++ k) = (join nl l ++ nl ++ join nl k)%string.
Proof.
  intros N M. induction l as [|x [|y l] IH]; [contradiction| |].
  - destruct k; [contradiction|]. reflexivity.
  - change (join nl ((x :: y :: l) ++ k)) with (x ++ nl ++ join nl ((y :: l) ++ k))%string. rewrite IH by discriminate.
    change (join nl (x :: y :: l)) with (x ++ nl ++ join nl (y :: l))%string. rewrite !sapp_assoc. reflexivity.
Qed.
Lemma last_block l : block l -> last_in (nl ++ nl) (join nl l) = false.
Proof.
  assert (L : forall cs a b, b <> "" -> last_in cs (a ++ b) = last_in cs b).
  { intros cs a b N. induction a as [|c a IH]; [reflexivity|]. change (String c a ++ b)%string with (String c (a ++ b)%string). cbn [last_in]. rewrite <- IH.
    destruct (a ++ b)%string eqn:E; [destruct a, b; try discriminate; contradiction|reflexivity]. }
  induction l as [|x [|y l] IH]; intros B; [reflexivity| |].
  - apply last_line. apply B. left. reflexivity.
  - assert (B' : block (y :: l)) by (intros z Z; apply B; right; exact Z). replace (join nl (x :: y :: l)) with ((x ++ nl) ++ join nl (y :: l))%string by (rewrite sapp_assoc; reflexivity). rewrite L; [apply IH, B'|]. destruct (B' y (or_introl eq_refl)) as [Y _]. destruct y; [contradiction|]. destruct l; discriminate.
Qed.
Lemma three_blocks l k : l <> [] -> k <> [] -> block l -> block k -> three (join nl (l ++ nl :: k)) = (join nl l ++ nl ++ nl ++ join nl k)%string.
Proof.
  intros N M BL BK. rewrite join_app by (assumption || discriminate). replace (join nl (nl :: k)) with (nl ++ nl ++ join nl k)%string by (destruct k; [contradiction|reflexivity]).
  rewrite replace_cut; [|discriminate|left; apply last_block; exact BL]. rewrite (three_block l BL). f_equal.
  replace (nl ++ nl ++ nl ++ join nl k)%string with ((nl ++ nl ++ nl) ++ join nl k)%string by (rewrite !sapp_assoc; reflexivity).
  rewrite replace_hit by discriminate. rewrite (three_block k BK), sapp_assoc. reflexivity.
Qed.
Lemma math_block s : has_char newline s = false -> math s <> "" /\ has_char newline (math s) = false.
Proof. intros H. split; [discriminate|]. unfold math. rewrite !has_char_app, H. reflexivity. Qed.

Lemma fixed_plain t : fixed t -> (forall c, In c (list_ascii_of_string "e+-\$p{}") \/ c = newline -> has_char c t = false) /\ inf t = infinity_sign t.
Proof.
  intros [->|[->|H]].
  - split; [|reflexivity]. intros c [Hc| ->]; [|reflexivity]. cbn in Hc. repeat destruct Hc as [<-|Hc]; try contradiction; reflexivity.
  - split; [|reflexivity]. intros c [Hc| ->]; [|reflexivity]. cbn in Hc. repeat destruct Hc as [<-|Hc]; try contradiction; reflexivity.
  - assert (N : forall c, In c (list_ascii_of_string "e+-\$p{}in") \/ c = newline -> has_char c t = false).
    { intros c Hc. refine (all_chars_no _ c t _ H). unfold number_char. cbn in Hc |- *. intros X. destruct Hc as [Hc| ->].
      - repeat destruct Hc as [<-|Hc]; try contradiction; intuition discriminate.
      - intuition discriminate. }
    split; [intros c Hc; apply N; cbn in *; tauto|]. rewrite replace_none by (apply (contains_char "i"); [reflexivity|apply N; cbn; tauto]).
    unfold infinity_sign. destruct (String.eqb_spec t "inf") as [->|]; [|reflexivity]. exfalso. specialize (N "i"%char ltac:(cbn; tauto)). discriminate.
Qed.

(** A report whose texts are plain: the formula's lines and the parameters' names mean what they say and the numbers are numbers. *)
Definition plain_report (r : report) : Prop :=
  (forall l, In l (split_on newline (rp_function r)) -> l <> "" /\ quiet l)
  /\ (forall p, In p (rp_popt r) -> quiet (fst p) /\ printed (fst (snd p)) /\ printed (snd (snd p)))
  /\ fixed (fst (rp_chisq r)) /\ fixed (snd (rp_chisq r))
  /\ Labels.contains "inf" (rp_rsq r) = false /\ has_char "$" (rp_rsq r) = false /\ has_char newline (rp_rsq r) = false.
Definition shown_value (p : string * (num * num)) : string := math (fst p ++ " = " ++ match fst (snd p) with Dec s => scientific s ++ " }" | n => value_text n end).

Lemma strip_converted p : quiet (fst p) -> printed (fst (snd p)) -> printed (snd (snd p)) ->
  strip_uncertainty (converted p) = (fst p ++ " = " ++ open_text (fst (snd p)) ++ " " ++ closing (fst (snd p)))%string.
Proof.
  destruct p as [name [v u]]. cbn [fst snd]. intros Q HV HU. unfold strip_uncertainty, converted. cbn [fst snd].
  set (w := (open_text u ++ closing u)%string).
  replace (name ++ " = " ++ open_text v ++ " " ++ closing v ++ "\pm " ++ w)%string with ((name ++ " = " ++ open_text v ++ " " ++ closing v) ++ "\pm" ++ " " ++ w)%string
    by (rewrite !sapp_assoc; reflexivity).
  assert (NP : Labels.contains "\pm" (open_text v) = false) by (apply (contains_char "p"); [reflexivity|apply open_no; [exact HV|cbn; tauto]]).
  rewrite (split_prepend "\pm") with (h := "") (t := split_str "\pm" (" " ++ w)).
  - cbn [hd]. rewrite sapp_nil_r. reflexivity.
  - apply contains_cut; [apply cut_first; reflexivity|apply Q; cbn; tauto|]. apply contains_cut; [left; reflexivity|reflexivity|].
    apply contains_cut; [apply cut_first; reflexivity|exact NP|]. destruct v; reflexivity.
  - apply cut_first. reflexivity.
  - apply split_hit. discriminate.
Qed.
Lemma shown_stripped p : quiet (fst p) -> printed (fst (snd p)) -> printed (snd (snd p)) ->
  inf (final_line (strip_uncertainty (converted p))) = math (fst p ++ " = " ++ value_text (fst (snd p))).
Proof.
  intros Q HV HU. rewrite strip_converted by assumption. destruct p as [name [v u]]. cbn [fst snd] in *. rewrite final_math.
  - rewrite inf_math. f_equal.
    replace (name ++ " = " ++ open_text v ++ " " ++ closing v)%string with (name ++ String " " ("=" ++ String " " (open_text v ++ String " " (closing v))))%string.
    + rewrite !inf_space. rewrite (replace_none "inf" _ name) by (apply Q; cbn; tauto). cbn [append].
      destruct v as [s| |neg]; cbn [open_text closing value_text]; [|reflexivity|destruct neg; reflexivity].
      rewrite (replace_none "inf" _ (scientific s)); [reflexivity|]. apply (contains_char "n"); [reflexivity|apply scientific_no; [exact (proj1 HV)|cbn; tauto]].
    + cbn [append]. reflexivity.
  - destruct name; discriminate.
  - destruct Q as (_ & Q & _). rewrite !has_char_app, Q, !open_no by (assumption || (cbn; tauto)). destruct v; reflexivity.
Qed.

Section Whole.
  Variables (o : options) (r : report).
  Hypotheses (HP : plain_report r) (H1 : op_pow10 o = true) (H2 : op_paper o = false) (H3 : op_rel o = false).
  Definition stats_raw : list string := (match npts_line o r with Some t => [t] | None => [] end ++ (if op_chisq o then [chisq_line r] else []))%list.
  Lemma raw_shape : raw_info o r = (split_on newline (rp_function r) ++ map popt_line (rp_popt r) ++ match stats_raw with [] => [] | l => "" :: l end)%list.
  Proof. unfold raw_info, stats_raw. rewrite H3. destruct (npts_line o r), (op_chisq o); reflexivity. Qed.
  Definition one (x : string) : string := inf (final_line (if op_strip o then strip_uncertainty (close_line (pow10 x)) else close_line (pow10 x))).
  (** a line that is not a parameter's *)
  Lemma one_other l : l <> "" -> calm l -> Labels.contains "\pm" l = false -> has_char "$" l = false -> count_char "{" l = count_char "}" l -> one l = math (inf l).
  Proof.
    intros N C P D B. unfold one. rewrite (pow10_calm l C), (close_balanced l P B). assert (E : strip_uncertainty l = l) by (unfold strip_uncertainty; rewrite split_alone by exact P; reflexivity).
    rewrite E. replace (if op_strip o then l else l) with l by (destruct (op_strip o); reflexivity). rewrite final_math by assumption. apply inf_math.
  Qed.
  Lemma npts_ok n : let t := ("N_\mathrm{pts} = {" ++ show_Z (Z.of_nat n) ++ "}")%string in
    one t = math t /\ has_char newline t = false.
  Proof.
    cbv zeta. set (d := show_Z (Z.of_nat n)). assert (D : all_chars digit d) by (apply show_nat_digits; lia).
    assert (ND : forall c, In c (list_ascii_of_string "e+-\$pin{}") \/ c = newline -> has_char c d = false).
    { intros c Hc. apply digits_no; [|exact D]. cbn. destruct Hc as [Hc| ->]; [|intuition discriminate]. cbn in Hc. repeat destruct Hc as [<-|Hc]; try contradiction; intuition discriminate. }
    split; [|rewrite !has_char_app, ND by tauto; reflexivity]. rewrite one_other.
    - rewrite (replace_none "inf"); [reflexivity|]. apply (contains_char "i"); [reflexivity|]. rewrite !has_char_app, ND by (cbn; tauto). reflexivity.
    - discriminate.
    - intros p Hp. cbn in Hp. repeat destruct Hp as [<-|Hp]; try contradiction.
      + apply (contains_char "e"); [reflexivity|]. rewrite !has_char_app, ND by (cbn; tauto). reflexivity.
      + apply (contains_char "e"); [reflexivity|]. rewrite !has_char_app, ND by (cbn; tauto). reflexivity.
      + apply (contains_char "+"); [reflexivity|]. rewrite !has_char_app, ND by (cbn; tauto). reflexivity.
      + apply (contains_char "-"); [reflexivity|]. rewrite !has_char_app, ND by (cbn; tauto). reflexivity.
    - apply contains_cut; [apply (cut_first "\pm")|reflexivity|].
      + assert (X : all_chars digit d) by exact D. destruct d as [|c d']; [reflexivity|]. cbn [append first_in tail]. destruct X as [X _]. cbn in X. repeat destruct X as [<-|X]; try contradiction; reflexivity.
      + apply (contains_char "p"); [reflexivity|]. rewrite has_char_app, ND by (cbn; tauto). reflexivity.
    - rewrite !has_char_app, ND by (cbn; tauto). reflexivity.
    - rewrite !count_char_app, (count_absent "{" d), (count_absent "}" d) by (apply ND; cbn; tauto). reflexivity.
  Qed.
  Lemma chisq_ok : one (chisq_line r) = shown_chisq r /\ has_char newline (chisq_line r) = false.
  Proof.
    destruct HP as (_ & _ & F1 & F2 & _). destruct (fixed_plain _ F1) as [P1 I1]. destruct (fixed_plain _ F2) as [P2 I2].
    unfold chisq_line. set (a := fst (rp_chisq r)) in *. set (b := snd (rp_chisq r)) in *.
    split; [|rewrite !has_char_app, P1, P2 by tauto; reflexivity]. rewrite one_other.
    - unfold shown_chisq. fold a b. f_equal. set (mid := "} \; \; \; \; \; \; \; \; \; \; \; \; \; \; \; \; \chi^2_{\nu;R} = {").
      assert (S : forall x y, inf (x ++ String "{" y) = (inf x ++ String "{" (inf y))%string) by (intros; apply replace_sep; [discriminate|reflexivity]).
      assert (E : forall x y, inf (x ++ String "}" y) = (inf x ++ String "}" (inf y))%string) by (intros; apply replace_sep; [discriminate|reflexivity]).
      change ("\chi^2_\nu = {" ++ a ++ mid ++ b ++ "}")%string with ("\chi^2_\nu = " ++ String "{" (a ++ String "}" (" \; \; \; \; \; \; \; \; \; \; \; \; \; \; \; \; \chi^2_{\nu;R} = {" ++ b ++ "}")))%string.
      rewrite S, E. change (" \; \; \; \; \; \; \; \; \; \; \; \; \; \; \; \; \chi^2_{\nu;R} = {" ++ b ++ "}")%string
        with (" \; \; \; \; \; \; \; \; \; \; \; \; \; \; \; \; \chi^2_{\nu;R} = " ++ String "{" (b ++ String "}" ""))%string. rewrite S, E, I1, I2. reflexivity.
    - discriminate.
    - intros p Hp. cbn in Hp. repeat destruct Hp as [<-|Hp]; try contradiction.
      + apply (contains_char "e"); [reflexivity|]. rewrite !has_char_app, P1, P2 by (cbn; tauto). reflexivity.
      + apply (contains_char "e"); [reflexivity|]. rewrite !has_char_app, P1, P2 by (cbn; tauto). reflexivity.
      + apply (contains_char "+"); [reflexivity|]. rewrite !has_char_app, P1, P2 by (cbn; tauto). reflexivity.
      + apply (contains_char "-"); [reflexivity|]. rewrite !has_char_app, P1, P2 by (cbn; tauto). reflexivity.
    - apply (contains_char "p"); [reflexivity|]. rewrite !has_char_app, P1, P2 by (cbn; tauto). reflexivity.
    - rewrite !has_char_app, P1, P2 by (cbn; tauto). reflexivity.
    - rewrite !count_char_app, (count_absent "{" a), (count_absent "}" a), (count_absent "{" b), (count_absent "}" b) by ((apply P1 || apply P2); cbn; tauto). reflexivity.
  Qed.
  Lemma stats_ok : map one stats_raw = statistics o r /\ (forall x, In x stats_raw -> has_char newline x = false).
  Proof.
    unfold stats_raw, statistics, npts_line. destruct (op_npts o), (rp_npts r) as [n|], (op_chisq o); cbn [map app];
      rewrite ?(proj1 (npts_ok _)), ?(proj1 chisq_ok); (split; [reflexivity|]); intros x Hx;
      repeat destruct Hx as [<-|Hx]; try contradiction; (apply (npts_ok n) || apply chisq_ok).
  Qed.
  Definition shown_first (p : string * (num * num)) : string :=
    if op_strip o then math (fst p ++ " = " ++ value_text (fst (snd p))) else shown_parameter p.
  Lemma first_ok : map one (split_on newline (rp_function r) ++ map popt_line (rp_popt r))
    = (map math (split_on newline (rp_function r)) ++ map shown_first (rp_popt r))%list.
  Proof.
    destruct HP as (HT & HPo & _). rewrite map_app. f_equal.
    - apply map_ext_in. intros l Hl. destruct (HT l Hl) as [N Q]. rewrite one_other; [|exact N|apply quiet_calm, Q|apply Q; cbn; tauto|apply Q|apply Q].
      rewrite replace_none by (apply Q; cbn; tauto). reflexivity.
    - rewrite map_map. apply map_ext_in. intros p Hp. destruct (HPo p Hp) as (Q & V & U). unfold one, shown_first. rewrite popt_converted by assumption.
      destruct (op_strip o); [apply shown_stripped|apply shown_converted]; assumption.
  Qed.
  Lemma raw_no_newline x : In x (raw_info o r) -> has_char newline (pow10 x) = false.
  Proof.
    rewrite raw_shape. intros Hx. assert (N : has_char newline x = false).
    { apply in_app_or in Hx. destruct Hx as [Hx|Hx]; [exact (split_on_free _ _ _ Hx)|]. apply in_app_or in Hx. destruct Hx as [Hx|Hx].
      - apply in_map_iff in Hx. destruct Hx as (p & <- & Hp). destruct HP as (_ & HPo & _). destruct (HPo p Hp) as (Q & V & U). unfold popt_line.
        destruct Q as (_ & _ & Q & _).
        assert (NN : forall n, printed n -> has_char newline (show_num n) = false).
        { intros [s| |neg] Hn; [|reflexivity|destruct neg; reflexivity]. cbn [show_num]. unfold show_exp.
          rewrite !has_char_app. rewrite (all_chars_no mantissa_char newline (show_mantissa s)); [|intros [X|[X|X]]; [cbn in X; intuition discriminate|discriminate X|discriminate X]|apply mantissa_chars, Hn].
          rewrite (digits_no newline (show_Z _)); [|cbn; intuition discriminate|apply show_nat_digits; lia]. destruct (Z.ltb (sc_exp s) 0), (Z.ltb (Z.abs (sc_exp s)) 10); reflexivity. }
        rewrite !has_char_app, Q, !NN by assumption. reflexivity.
      - assert (S := proj2 stats_ok). destruct stats_raw as [|y l]; [contradiction|]. destruct Hx as [<-|Hx]; [reflexivity|apply S, Hx]. }
    unfold pow10. do 4 (apply replace_free; [reflexivity|]). exact N.
  Qed.
  Lemma raw_nonempty : raw_info o r <> [].
  Proof. rewrite raw_shape. destruct (split_on newline (rp_function r)) eqn:E; [exfalso; exact (split_on_nonempty _ _ E)|discriminate]. Qed.
  Lemma convert_map : convert (raw_info o r) = map (fun x => close_line (pow10 x)) (raw_info o r).
  Proof.
    unfold convert. rewrite pow10_join. unfold nl. rewrite split_join.
    - apply map_map.
    - pose proof raw_nonempty. destruct (raw_info o r); [contradiction|discriminate].
    - intros p Hp. apply in_map_iff in Hp. destruct Hp as (x & <- & Hx). apply raw_no_newline, Hx.
  Qed.
  Lemma whole : parameter_info o r = paragraphs o r (map math (split_on newline (rp_function r)) ++ map shown_first (rp_popt r)).
  Proof.
    unfold parameter_info. rewrite H1, H2. cbn [andb negb]. rewrite orb_false_r, convert_map.
    set (info := if op_strip o then _ else _).
    assert (E : map (fun x => inf (final_line x)) info = map one (raw_info o r)).
    { unfold info, one. destruct (op_strip o); rewrite ?map_map; reflexivity. }
    set (F := (map math (split_on newline (rp_function r)) ++ map shown_first (rp_popt r))%list).
    set (info2 := if op_rsq o then _ else _).
    set (R := if op_rsq o then [math ("R^2 = " ++ rp_rsq r)] else []).
    assert (RS : inf (final_line ("R^2 = " ++ rp_rsq r)) = math ("R^2 = " ++ rp_rsq r)).
    { destruct HP as (_ & _ & _ & _ & R1 & R2 & R3). rewrite final_math; [|discriminate|rewrite has_char_app, R2; reflexivity]. rewrite inf_math. f_equal.
      change ("R^2 = " ++ rp_rsq r)%string with ("R^2 =" ++ String " " (rp_rsq r))%string. rewrite inf_space, (replace_none "inf" _ _ R1). reflexivity. }
    assert (E2 : map (fun x => inf (final_line x)) info2 = (F ++ (match statistics o r with [] => [] | l => nl :: l end) ++ R)%list).
    { assert (G : map one (raw_info o r) = (F ++ match statistics o r with [] => [] | l => nl :: l end)%list).
      { rewrite raw_shape, app_assoc, map_app, first_ok. fold F. f_equal. rewrite <- (proj1 stats_ok). destruct stats_raw as [|y l]; [reflexivity|].
        cbn [map]. f_equal. unfold one. destruct (op_strip o); reflexivity. }
      unfold info2, R. rewrite app_assoc. destruct (op_rsq o).
      - rewrite map_app, E, G. cbn [map]. rewrite RS. reflexivity.
      - rewrite E, G, app_nil_r. reflexivity. }
    assert (J : inf (join nl (map final_line info2)) = join nl (map (fun x => inf (final_line x)) info2)).
    { unfold nl. rewrite replace_join by (discriminate || reflexivity). rewrite map_map. reflexivity. }
    rewrite J, E2. unfold paragraphs. fold F.
    assert (FN : F <> []). { unfold F. destruct (split_on newline (rp_function r)) eqn:X; [exfalso; exact (split_on_nonempty _ _ X)|discriminate]. }
    assert (FB : block F).
    { intros x Hx. unfold F in Hx. apply in_app_or in Hx. destruct Hx as [Hx|Hx].
      - apply in_map_iff in Hx. destruct Hx as (l & <- & Hl). apply math_block. exact (split_on_free _ _ _ Hl).
      - apply in_map_iff in Hx. destruct Hx as (p & <- & Hp). destruct HP as (_ & HPo & _). destruct (HPo p Hp) as (Q & V & U). destruct Q as (_ & _ & Q & _).
        assert (VN : forall n, printed n -> has_char newline (value_text n) = false /\ has_char newline (uncertainty_text n) = false).
        { intros [s| |neg] Hn; [|split; reflexivity|destruct neg; split; reflexivity]. cbn [value_text uncertainty_text]. rewrite !has_char_app.
          rewrite (scientific_no newline s (proj1 Hn)) by (cbn; tauto). split; reflexivity. }
        unfold shown_first, shown_parameter. destruct (op_strip o); apply math_block; rewrite !has_char_app, Q, (proj1 (VN _ V)), ?(proj2 (VN _ U)); reflexivity. }
    assert (SB : block (statistics o r)).
    { intros x Hx. rewrite <- (proj1 stats_ok) in Hx. apply in_map_iff in Hx. destruct Hx as (y & <- & Hy). pose proof (proj2 stats_ok y Hy) as NY.
      assert (X : In (one y) (statistics o r)) by (rewrite <- (proj1 stats_ok); apply in_map, Hy). unfold statistics in X. apply in_app_or in X.
      destruct X as [X|X].
      - destruct (op_npts o), (rp_npts r) as [n|]; try contradiction. destruct X as [X|[]]. rewrite <- X. apply math_block. apply npts_ok.
      - destruct (op_chisq o); [|contradiction]. destruct X as [X|[]]. rewrite <- X. unfold shown_chisq. apply math_block.
        destruct HP as (_ & _ & F1 & F2 & _). destruct (fixed_plain _ F1) as [P1 I1]. destruct (fixed_plain _ F2) as [P2 I2].
        assert (IN : forall t, has_char newline t = false -> has_char newline (infinity_sign t) = false) by (intros t Ht; unfold infinity_sign; destruct (String.eqb t "inf"); [reflexivity|exact Ht]).
        rewrite !has_char_app, !IN by ((apply P1 || apply P2); tauto). reflexivity. }
    assert (RB : block R). { unfold R. destruct (op_rsq o); [|intros x []]. intros x [<-|[]]. apply math_block. destruct HP as (_ & _ & _ & _ & _ & _ & R3). rewrite has_char_app, R3. reflexivity. }
    assert (AB : forall a b, block a -> block b -> block (a ++ b)) by (intros a b A B x Hx; apply in_app_or in Hx; destruct Hx; auto).
    destruct (statistics o r) as [|y l] eqn:ES.
    - cbn [app]. rewrite three_block by (apply AB; assumption). cbn [append]. unfold R. destruct (op_rsq o).
      + rewrite join_app by (assumption || discriminate). reflexivity.
      + rewrite app_nil_r, sapp_nil_r. reflexivity.
    - change ((nl :: y :: l) ++ R)%list with (nl :: ((y :: l) ++ R))%list. rewrite three_blocks; [|exact FN|discriminate|exact FB|apply AB; assumption].
      unfold R. destruct (op_rsq o).
      + rewrite (join_app (y :: l)) by discriminate. rewrite !sapp_assoc. reflexivity.
      + rewrite app_nil_r, !sapp_nil_r. reflexivity.
  Qed.
End Whole.

(** The annotation of a fit: the lines of its formula, one line for each parameter in their order with the digits printed for it and its uncertainty, each times
    its power of ten, a blank line, the number of points and the chi-squares as far as asked for, r-squared. *)
Theorem C215_annotation o r : plain_report r -> op_pow10 o = true -> op_paper o = false -> op_rel o = false -> op_strip o = false ->
  parameter_info o r = paragraphs o r (map math (split_on newline (rp_function r)) ++ map shown_parameter (rp_popt r)).
Proof. intros HP H1 H2 H3 H4. rewrite (whole o r HP H1 H2 H3). unfold shown_first. rewrite H4. reflexivity. Qed.
(** With strip_uncertainties the same without the uncertainties. *)
Theorem C215_without_uncertainties o r : plain_report r -> op_pow10 o = true -> op_paper o = false -> op_rel o = false -> op_strip o = true ->
  parameter_info o r = paragraphs o r (map math (split_on newline (rp_function r)) ++ map (fun p => math (fst p ++ " = " ++ value_text (fst (snd p)))) (rp_popt r)).
Proof. intros HP H1 H2 H3 H4. rewrite (whole o r HP H1 H2 H3). unfold shown_first. rewrite H4. reflexivity. Qed.

(** Formulas that are not plain are altered: "+0.5" loses its zero and \infty its meaning. *)
Theorem C215_formula_altered_refuted :
  let report f := mkReport f [("A", (Dec (mkSci false 1 [2] 0), Dec (mkSci false 1 [] (-1))))] "" None ("1.00", "1.00") "0.99" in
  let o := mkOptions false false true false false false false in
  parameter_info o (report "f(x)=A x+0.5") = ("$ f(x)=A x+.5 $" ++ nl ++ "$ A = 1.2 \times 10^{+0 }\pm 1 \times 10^{-1} $")%string
  /\ parameter_info o (report "f(x)=A \int_x^\infty") = ("$ f(x)=A \int_x^\\inftyty $" ++ nl ++ "$ A = 1.2 \times 10^{+0 }\pm 1 \times 10^{-1} $")%string.
Proof. split; vm_compute; reflexivity. Qed.

(* ---------------------------------------------------------------- C216: for a paper *)
(** The number that decimal digits stand for. *)
Definition digits_value (l : list nat) : Z := fold_left (fun a d => 10 * a + Z.of_nat d)%Z l 0%Z.
Definition number (neg : bool) (l : list nat) (e : Z) : R := ((if neg then -1 else 1) * IZR (digits_value l) * powerRZ 10 e)%R.
Definition sci_value (s : sci) : R := number (sc_neg s) (sc_int s :: sc_frac s) (sc_exp s - Z.of_nat (List.length (sc_frac s))).
(** The text of a number: sign, digits, perhaps a point and digits, perhaps an exponent. *)
Definition denotes (t : string) (x : R) : Prop := exists neg ip fp eneg ed,
  digits (ip ++ fp ++ ed) /\ ip <> []
  /\ t = ((if neg : bool then "-" else "") ++ show_digits ip ++ (match fp with [] => "" | _ => "." ++ show_digits fp end)
          ++ (match ed with [] => "" | _ => "e" ++ (if eneg : bool then "-" else "+") ++ show_digits ed end))%string
  /\ x = number neg (ip ++ fp) ((if eneg then - digits_value ed else digits_value ed) - Z.of_nat (List.length fp)).
Definition positional (e : Z) : Prop := (-4 <= e < 16)%Z.

Lemma value_from l : forall a, fold_left (fun a d => 10 * a + Z.of_nat d)%Z l a = (a * 10 ^ Z.of_nat (List.length l) + digits_value l)%Z.
Proof.
  unfold digits_value. induction l as [|d l IH]; intros a; [cbn; lia|]. cbn [fold_left List.length]. rewrite (IH (10 * a + Z.of_nat d)%Z), (IH (10 * 0 + Z.of_nat d)%Z).
  rewrite Nat2Z.inj_succ, Z.pow_succ_r by lia. ring.
Qed.
Lemma value_app l k : digits_value (l ++ k) = (digits_value l * 10 ^ Z.of_nat (List.length k) + digits_value k)%Z.
Proof. unfold digits_value at 1. rewrite fold_left_app. apply value_from. Qed.
Lemma value_zeros n : digits_value (repeat 0%nat n) = 0%Z.
Proof. induction n as [|n IH]; [reflexivity|]. change (repeat 0%nat (S n)) with ([0%nat] ++ repeat 0%nat n)%list. rewrite value_app, IH. reflexivity. Qed.
Lemma trim_spec l : exists n, l = (trim l ++ repeat 0%nat n)%list.
Proof.
  induction l as [|d l (n & IH)]; [exists 0%nat; reflexivity|]. cbn [trim]. destruct (trim l) as [|x t] eqn:E.
  - destruct (Nat.eqb_spec d 0) as [->|N]; [exists (S n); rewrite IH; reflexivity|exists n; rewrite IH at 1; reflexivity].
  - exists n. rewrite IH at 1. reflexivity.
Qed.
Lemma trim_digits l : digits l -> digits (trim l).
Proof. intros H d D. apply H. destruct (trim_spec l) as (n & ->). apply in_or_app. left. exact D. Qed.
Lemma pow10_Z n : IZR (10 ^ Z.of_nat n) = powerRZ 10 (Z.of_nat n).
Proof. rewrite <- pow_IZR. rewrite <- pow_powerRZ. reflexivity. Qed.
Lemma ten_nz : (10 <> 0)%R. Proof. lra. Qed.
(** zeros at the end and the power of ten *)
Lemma number_zeros neg l n e : number neg (l ++ repeat 0%nat n) e = number neg l (e + Z.of_nat n).
Proof.
  unfold number. rewrite value_app, value_zeros, repeat_length, Z.add_0_r, mult_IZR, pow10_Z, powerRZ_add by exact ten_nz. ring.
Qed.
Lemma number_leading neg n l e : number neg (repeat 0%nat n ++ l) e = number neg l e.
Proof. unfold number. rewrite value_app, value_zeros. reflexivity. Qed.
Lemma rstrip_app cs a b : rstrip cs b <> "" -> rstrip cs (a ++ b) = (a ++ rstrip cs b)%string.
Proof.
  intros H. induction a as [|c a IH]; [reflexivity|]. change (String c a ++ b)%string with (String c (a ++ b)%string). cbn [rstrip]. rewrite IH.
  destruct (String.eqb_spec (a ++ rstrip cs b) "") as [E|_]; [destruct a; [contradiction|discriminate]|reflexivity].
Qed.
Lemma rstrip_last cs a c : has_char c cs = false -> rstrip cs (a ++ String c "") = (a ++ String c "")%string.
Proof. intros H. rewrite rstrip_app; cbn [rstrip]; rewrite H; [reflexivity|discriminate]. Qed.
Lemma digit_zero d : (d < 10)%nat -> has_char (ascii_of_nat (48 + d)) "0" = Nat.eqb d 0.
Proof. intros H. do 10 (destruct d as [|d]; [reflexivity|]). lia. Qed.
Lemma rstrip_digits l : digits l -> rstrip "0" (show_digits l) = show_digits (trim l).
Proof.
  induction l as [|d l IH]; intros H; [reflexivity|]. cbn [show_digits rstrip trim]. rewrite IH by (intros x X; apply H; right; exact X).
  rewrite digit_zero by (apply H; left; reflexivity). destruct (trim l) as [|x t]; [|reflexivity]. cbn [show_digits String.eqb andb]. destruct (Nat.eqb d 0); reflexivity.
Qed.
Lemma no_dot l : digits l -> has_char "." (show_digits l) = false.
Proof. intros H. apply digits_no; [cbn; intuition discriminate|apply digits_text, H]. Qed.
Lemma rstrip_none cs s : (forall c, has_char c cs = true -> has_char c s = false) -> rstrip cs s = s.
Proof.
  induction s as [|c s IH]; intros H; [reflexivity|]. cbn [rstrip]. rewrite IH.
  - replace (has_char c cs) with false; [rewrite andb_false_r; reflexivity|]. destruct (has_char c cs) eqn:E; [|reflexivity]. specialize (H c E). cbn in H. rewrite ascii_eqb_refl in H. discriminate.
  - intros d D. specialize (H d D). cbn [has_char] in H. apply orb_false_elim in H. apply H.
Qed.
Lemma rstrip_digits_dot l : digits l -> rstrip "." (show_digits l) = show_digits l.
Proof.
  intros H. apply rstrip_none. intros c Hc. cbn in Hc. rewrite orb_false_r in Hc. apply Ascii.eqb_eq in Hc. subst c. apply no_dot, H.
Qed.
Lemma trim_last l x t : trim l = x :: t -> exists k d, trim l = (k ++ [d])%list /\ d <> 0%nat.
Proof.
  revert x t. induction l as [|d l IH]; intros x t E; [discriminate|]. cbn [trim] in *. destruct (trim l) as [|y u] eqn:F.
  - destruct (Nat.eqb_spec d 0) as [->|N]; [discriminate|]. exists [], d. split; [reflexivity|exact N].
  - destruct (IH y u eq_refl) as (k & z & A & B). exists (d :: k), z. rewrite A. split; [reflexivity|exact B].
Qed.
Lemma trim_idem k d : d <> 0%nat -> trim (k ++ [d]) = (k ++ [d])%list.
Proof.
  intros N. induction k as [|c k IH]; [cbn; destruct (Nat.eqb_spec d 0); [contradiction|reflexivity]|].
  change ((c :: k) ++ [d])%list with (c :: (k ++ [d]))%list. cbn [trim]. rewrite IH. destruct k; reflexivity.
Qed.
(** stripping zeros and a point from a text that ends in digits, the last of them not zero *)
Lemma strip_kept a l d : digits (l ++ [d]) -> d <> 0%nat -> rstrip "." (rstrip "0" (a ++ show_digits (l ++ [d]))) = (a ++ show_digits (l ++ [d]))%string.
Proof.
  intros H N. rewrite (rstrip_app "0"); rewrite rstrip_digits, trim_idem by assumption.
  - rewrite rstrip_app; rewrite rstrip_digits_dot by exact H; [reflexivity|]. destruct l; discriminate.
  - destruct l; discriminate.
Qed.
Lemma uint_show u : exists l, digits l /\ NilEmpty.string_of_uint u = show_digits l /\ forall a, Zpos (Pos.of_uint_acc u a) = fold_left (fun a d => 10 * a + Z.of_nat d)%Z l (Zpos a).
Proof.
  induction u as [|u (l & D & S & V)|u (l & D & S & V)|u (l & D & S & V)|u (l & D & S & V)|u (l & D & S & V)|u (l & D & S & V)|u (l & D & S & V)|u (l & D & S & V)|u (l & D & S & V)|u (l & D & S & V)];
    [exists []; repeat split; intros d [] |..];
    [exists (0 :: l)%nat|exists (1 :: l)%nat|exists (2 :: l)%nat|exists (3 :: l)%nat|exists (4 :: l)%nat|exists (5 :: l)%nat|exists (6 :: l)%nat|exists (7 :: l)%nat|exists (8 :: l)%nat|exists (9 :: l)%nat];
    (split; [intros d [<-|X]; [lia|exact (D d X)]|split; [cbn [NilEmpty.string_of_uint show_digits]; rewrite S; reflexivity|
      intros a; cbn [Pos.of_uint_acc fold_left]; rewrite V; f_equal; lia]]).
Qed.
Lemma show_Z_digits n : (0 <= n)%Z -> exists l, digits l /\ l <> [] /\ show_Z n = show_digits l /\ digits_value l = n.
Proof.
  intros H. destruct (nonneg_uint n H) as (u & E & N & ->). assert (V : n = Z.of_N (Pos.of_uint u)) by (rewrite <- (DecimalZ.of_to n), E; reflexivity).
  rewrite V. clear V E H n.
  assert (G : exists l, digits l /\ NilEmpty.string_of_uint u = show_digits l /\ digits_value l = Z.of_N (Pos.of_uint u)).
  { clear N. induction u as [|u (l & D & S & V)|u _|u _|u _|u _|u _|u _|u _|u _|u _]; [exists []; repeat split; intros d [] | |..].
    - exists (0 :: l)%nat. split; [intros d [<-|X]; [lia|exact (D d X)]|]. split; [cbn [NilEmpty.string_of_uint show_digits]; rewrite S; reflexivity|].
      change (0 :: l)%nat with ([0%nat] ++ l)%list. rewrite value_app. cbn [Pos.of_uint]. rewrite <- V. reflexivity.
    - destruct (uint_show u) as (l & D & S & V). exists (1 :: l)%nat. split; [intros d [<-|X]; [lia|exact (D d X)]|]. split; [cbn; rewrite S; reflexivity|]. cbn [Pos.of_uint Z.of_N]. rewrite V. reflexivity.
    - destruct (uint_show u) as (l & D & S & V). exists (2 :: l)%nat. split; [intros d [<-|X]; [lia|exact (D d X)]|]. split; [cbn; rewrite S; reflexivity|]. cbn [Pos.of_uint Z.of_N]. rewrite V. reflexivity.
    - destruct (uint_show u) as (l & D & S & V). exists (3 :: l)%nat. split; [intros d [<-|X]; [lia|exact (D d X)]|]. split; [cbn; rewrite S; reflexivity|]. cbn [Pos.of_uint Z.of_N]. rewrite V. reflexivity.
    - destruct (uint_show u) as (l & D & S & V). exists (4 :: l)%nat. split; [intros d [<-|X]; [lia|exact (D d X)]|]. split; [cbn; rewrite S; reflexivity|]. cbn [Pos.of_uint Z.of_N]. rewrite V. reflexivity.
    - destruct (uint_show u) as (l & D & S & V). exists (5 :: l)%nat. split; [intros d [<-|X]; [lia|exact (D d X)]|]. split; [cbn; rewrite S; reflexivity|]. cbn [Pos.of_uint Z.of_N]. rewrite V. reflexivity.
    - destruct (uint_show u) as (l & D & S & V). exists (6 :: l)%nat. split; [intros d [<-|X]; [lia|exact (D d X)]|]. split; [cbn; rewrite S; reflexivity|]. cbn [Pos.of_uint Z.of_N]. rewrite V. reflexivity.
    - destruct (uint_show u) as (l & D & S & V). exists (7 :: l)%nat. split; [intros d [<-|X]; [lia|exact (D d X)]|]. split; [cbn; rewrite S; reflexivity|]. cbn [Pos.of_uint Z.of_N]. rewrite V. reflexivity.
    - destruct (uint_show u) as (l & D & S & V). exists (8 :: l)%nat. split; [intros d [<-|X]; [lia|exact (D d X)]|]. split; [cbn; rewrite S; reflexivity|]. cbn [Pos.of_uint Z.of_N]. rewrite V. reflexivity.
    - destruct (uint_show u) as (l & D & S & V). exists (9 :: l)%nat. split; [intros d [<-|X]; [lia|exact (D d X)]|]. split; [cbn; rewrite S; reflexivity|]. cbn [Pos.of_uint Z.of_N]. rewrite V. reflexivity. }
  destruct G as (l & D & S & V). exists l. split; [exact D|]. split; [|split; [exact S|exact V]]. intros ->. destruct u; try discriminate. contradiction.
Qed.
