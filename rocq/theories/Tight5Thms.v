(** C183: labels spell out what they show: the exact texts, units and file names. *)
From Coq Require Import List String Ascii Bool Arith NArith ZArith Lia.
From Verif Require Import Py PyStr LabelTables Labels LabelsThms Icme Spacecraft MoreLabels MoreLabelsThms Tight2Thms.
Import ListNotations.
Open Scope string_scope.

(* ------------------------------------------------------------ specification *)
(** every occurrence of one character written as a text *)
Fixpoint write_char (c : ascii) (by_ : string) (s : string) : string :=
  match s with "" => "" | String d r => (if Ascii.eqb c d then by_ else String d "") ++ write_char c by_ r end.
Definition spaced (by_ s : string) : string := write_char " " by_ s.
Definition line_feed : string := String "010" "".
(** an empty description is no description *)
Definition described (d : option string) (text shown : string) : Prop :=
  match d with None => shown = text | Some "" => shown = text | Some d => shown = d ++ line_feed ++ text end.
(** a component of a path *)
Definition component (s : string) : Prop := has_char "/" s = false /\ s <> "" /\ s <> ".".

Lemma replace_write c n s : replace (String c "") n s = write_char c n s.
Proof. induction s as [|d s IH]; [reflexivity|]. rewrite replace_head, IH. reflexivity. Qed.
Lemma described_ok d t : described d t (with_description d t).
Proof. destruct d as [[|c r]|]; reflexivity. Qed.
Lemma write_free x c n s : has_char x n = false -> has_char x s = false -> has_char x (write_char c n s) = false.
Proof. intros N F. rewrite <- replace_write. apply replace_free; assumption. Qed.
Lemma has_app x a b : has_char x (a ++ b) = has_char x a || has_char x b.
Proof. induction a as [|c a IH]; [reflexivity|]. cbn [String.append has_char]. rewrite IH, orb_assoc. reflexivity. Qed.
Lemma write_absent c n s : has_char c s = false -> write_char c n s = s.
Proof. intro F. rewrite <- replace_write. apply replace_absent, F. Qed.

(* ------------------------------------------------------------ counts, probabilities *)
Definition normalised_count : list (string * string) :=
  [("c", "\mathrm{Col. \, Norm \, Count}"); ("r", "\mathrm{Row \, Norm \, Count}"); ("t", "\mathrm{Total \, Norm \, Count}");
   ("d", "\mathrm{Probability \, Density}"); ("cd", "\mathrm{1D \, Probability \, Density}"); ("rd", "\mathrm{1D \, Probability \, Density}")].
(** A count says how it is normalised; anything that is not one of the six normalisations is refused. *)
Theorem C183_count : forall norm d,
  (exists l, count_label lower upper None d = Ok l /\ l_tex l = "\mathrm{Count}" /\ l_path l = ["count"] /\ described d "$\mathrm{Count} \; [\#]$" (l_str l)) /\
  ((forall t, ~ In (lower norm, t) normalised_count) -> count_label lower upper (Some norm) d = Err AssertionError) /\
  (forall t, In (lower norm, t) normalised_count -> exists l, count_label lower upper (Some norm) d = Ok l /\ l_tex l = t /\ l_units l = Some "\#" /\
     l_path l = ["count"; upper (lower norm) ++ "norm"] /\ described d ("$" ++ t ++ " \; [\#]$") (l_str l)).
Proof.
  intros norm d. split; [|split].
  - unfold count_label. cbn [option_map negb]. eexists. split; [reflexivity|]. cbn [l_tex l_path l_str]. split; [reflexivity|]. split; [reflexivity|]. apply described_ok.
  - unfold count_label. cbn [option_map]. generalize (lower norm). intros k F. destruct (mem_str k (map fst trans_axnorm)) eqn:E; [|reflexivity]. exfalso.
    apply mem_str_In in E. cbn in E. destruct E as [<-|[<-|[<-|[<-|[<-|[<-|[]]]]]]]; eapply F; cbn; eauto 10.
  - unfold count_label. cbn [option_map]. generalize (lower norm). intros k t H. cbn in H.
    destruct H as [E|[E|[E|[E|[E|[E|[]]]]]]]; injection E as <- <-; (eexists; split; [reflexivity|]; cbn [l_tex l_units l_path l_str]; split; [reflexivity|]; split; [reflexivity|]; split; [reflexivity|]; apply described_ok).
Qed.

(** signs of comparisons in file names *)
Definition signs : list (string * string) := [(">", "GT"); ("<", "LT"); ("==", "EQ"); ("!=", "NEQ")].
Definition value_char (c : ascii) : bool := negb (has_char c "<>=!\ /").
Fixpoint value (v : string) : Prop := match v with "" => True | String c r => value_char c = true /\ value r end.
Lemma value_free x v : has_char x "<>=!\ /" = true -> value v -> has_char x v = false.
Proof.
  intros X. induction v as [|c v IH]; intro V; [reflexivity|]. destruct V as [V1 V2]. cbn [has_char]. rewrite (IH V2), orb_false_r. unfold value_char in V1.
  destruct (Ascii.eqb_spec x c) as [<-|N]; [rewrite X in V1; discriminate V1|reflexivity].
Qed.
Lemma replace_other p n v : (match p with String c _ => has_char c v = false | "" => False end) -> replace p n v = v.
Proof.
  intro F. apply replace_none. destruct p as [|c p]; [destruct F|]. clear n. induction v as [|d v IH]; [reflexivity|]. cbn [has_char] in F. apply orb_false_elim in F. destruct F as [F1 F2].
  cbn [Labels.contains]. rewrite (IH F2), orb_false_r. cbn [String.prefix]. destruct (ascii_dec c d) as [->|N]; [|reflexivity]. rewrite Ascii.eqb_refl in F1. discriminate F1.
Qed.
Lemma value_keeps o n u : value u -> (match o with String c _ => has_char c "<>=!\ /" = true | "" => False end) -> replace o n u = u.
Proof. intros V X. destruct o as [|c o]; [destruct X|]. apply replace_other. exact (value_free c u X V). Qed.
Lemma shifted c o n d u : Ascii.eqb c d = false -> replace (String c o) n (String d u) = String d (replace (String c o) n u).
Proof. intro E. unfold replace. cbn [replace_go String.prefix]. destruct (ascii_dec c d) as [->|N]; [rewrite Ascii.eqb_refl in E; discriminate E|reflexivity]. Qed.
Lemma sign_path sp sign word v : In (sign, word) signs -> value v -> comparison_path sp (sign ++ v) = word ++ v.
Proof.
  intros I V. unfold comparison_path. cbv zeta.
  cbn in I. destruct I as [E|[E|[E|[E|[]]]]]; injection E as <- <-.
  - assert (W : value ("GT" ++ v)) by (repeat split; exact V).
    rewrite (replace_hit ">" "GT") by discriminate. rewrite (value_keeps ">" "GT" v V eq_refl). rewrite !(fun o n => value_keeps o n _ W) by reflexivity. destruct sp; reflexivity.
  - assert (W : value ("LT" ++ v)) by (repeat split; exact V).
    change ("<" ++ v) with (String "<" v). rewrite (shifted ">" "" "GT" "<" v eq_refl), (value_keeps ">" "GT" v V eq_refl). change (String "<" v) with ("<" ++ v).
    rewrite (replace_hit "<" "LT") by discriminate. rewrite (value_keeps "<" "LT" v V eq_refl). rewrite !(fun o n => value_keeps o n _ W) by reflexivity. destruct sp; reflexivity.
  - assert (W : value ("EQ" ++ v)) by (repeat split; exact V).
    assert (K : forall c o n, has_char c "<>=!\ /" = true -> Ascii.eqb c "=" = false -> replace (String c o) n ("==" ++ v) = "==" ++ v).
    { intros c o n X N. cbn [String.append]. rewrite !shifted by exact N. rewrite (value_keeps (String c o) n v V X). reflexivity. }
    rewrite !K by reflexivity. rewrite (replace_hit "==" "EQ") by discriminate. rewrite (value_keeps "==" "EQ" v V eq_refl), (value_keeps "!=" "NEQ" _ W eq_refl).
    destruct sp; [apply (value_keeps " " "_" _ W eq_refl)|reflexivity].
  - assert (W : value ("NEQ" ++ v)) by (repeat split; exact V).
    assert (K : forall c o n, has_char c "<>=!\ /" = true -> Ascii.eqb c "=" = false -> Ascii.eqb c "!" = false -> replace (String c o) n ("!=" ++ v) = "!=" ++ v).
    { intros c o n X N M. cbn [String.append]. rewrite !shifted by assumption. rewrite (value_keeps (String c o) n v V X). reflexivity. }
    rewrite !K by reflexivity.
    assert (B : replace "==" "EQ" ("!=" ++ v) = "!=" ++ v).
    { cbn [String.append]. rewrite (shifted "=" "=" "EQ" "!" _ eq_refl). f_equal. unfold replace. cbn [replace_go].
      assert (P1 : String.prefix "==" (String "=" v) = false) by (destruct v as [|c v]; [reflexivity|]; cbn [String.prefix]; destruct (ascii_dec "=" "=") as [_|]; [|reflexivity]; destruct (ascii_dec "=" c) as [<-|]; [destruct V as [V _]; discriminate V|reflexivity]).
      rewrite P1. f_equal. exact (value_keeps "==" "EQ" v V eq_refl). }
    rewrite B, (replace_hit "!=" "NEQ") by discriminate. rewrite (value_keeps "!=" "NEQ" v V eq_refl). destruct sp; [apply (value_keeps " " "_" _ W eq_refl)|reflexivity].
Qed.
Lemma value_slash v : value v -> has_char "/" v = false.
Proof. apply value_free. reflexivity. Qed.

(** "How likely is this quantity above this value" and "how often": text, units and file name say the quantity, the
    comparison and the value. *)
Theorem C183_probability_and_count : forall other p sign word v nl d,
  l_path other = [p] -> component p -> In (sign, word) signs -> value v ->
  let tp := spaced " \, " ("\mathrm{Prob.}(" ++ l_tex other ++ " " ++ sign ++ v ++ ")") in
  let tc := spaced " \, " ("\mathrm{Count.}(" ++ l_tex other ++ " " ++ sign ++ v ++ ")") in
  let pr := probability_label other (sign ++ v) d in let co := count_other_label other (sign ++ v) nl d in
  l_tex pr = tp /\ l_units pr = Some "\%" /\ l_path pr = ["prob-" ++ spaced "-" p ++ "-" ++ word ++ v] /\ described d ("$" ++ tp ++ " \; [\%]$") (l_str pr) /\
  l_tex co = tc /\ l_units co = Some "\#" /\ l_path co = ["cnt-" ++ spaced "-" p ++ "-" ++ word ++ v] /\
  described d ("$" ++ tc ++ (if nl then " $" ++ line_feed ++ "$ " else " \; ") ++ "[\#]$") (l_str co).
Proof.
  intros other p sign word v nl d HP (P1 & P2 & P3) I V tp tc pr co.
  assert (PS : path_str (l_path other) = p) by (rewrite HP; reflexivity).
  assert (W : has_char "/" word = false) by (cbn in I; destruct I as [E|[E|[E|[E|[]]]]]; injection E as <- <-; reflexivity).
  assert (FS : forall head, has_char "/" head = false -> has_char "/" (head ++ spaced "-" p ++ "-" ++ word ++ v) = false).
  { intros head FH. rewrite !has_app, FH, W, (value_slash v V). unfold spaced. rewrite write_free by (assumption || reflexivity). reflexivity. }
  unfold pr, co, probability_label, count_other_label. cbn [l_tex l_units l_path l_str]. rewrite PS, !(sign_path _ sign word v I V).
  split; [unfold tp, spaced; rewrite <- replace_write, !sapp_assoc; reflexivity|]. split; [reflexivity|].
  split; [rewrite replace_write; apply mkpath_single; [apply FS; reflexivity|discriminate|discriminate]|].
  split; [unfold tp, spaced; rewrite <- replace_write; rewrite ?sapp_assoc; apply described_ok|].
  split; [unfold tc, spaced; rewrite <- replace_write, !sapp_assoc; reflexivity|]. split; [reflexivity|].
  split; [rewrite replace_write; apply mkpath_single; [apply FS; reflexivity|discriminate|discriminate]|].
  unfold tc, spaced; rewrite <- replace_write; destruct nl; match goal with |- described d ?x (with_description d ?y) => replace y with x; [apply described_ok|] end; cbn [String.append]; repeat (rewrite sapp_assoc; cbn [String.append]); reflexivity.
Qed.

(* ------------------------------------------------------------ functions, absolute values *)
Definition file_name (w : string) : Prop := has_char "/" w = false /\ has_char "\" w = false /\ has_char "{" w = false /\ has_char "}" w = false.
Lemma no_backslash n w : has_char "\" w = false -> replace "\mathrm" n w = w.
Proof. intro F. apply replace_other. exact F. Qed.
Definition named_file (fcn f : string) : Prop :=
  (fcn = f /\ file_name f) \/ (fcn = "\mathrm{" ++ f ++ "}" /\ file_name f) \/
  (exists a b, fcn = a ++ "/" ++ b /\ f = a ++ "-OV-" ++ b /\ file_name a /\ file_name b) \/
  (exists a b, fcn = "\" ++ a ++ "{" ++ b ++ "}" /\ f = a ++ b /\ file_name a /\ file_name b /\ Labels.contains "\mathrm" fcn = false).
Lemma write_app c n a b : write_char c n (a ++ b) = write_char c n a ++ write_char c n b.
Proof. induction a as [|d a IH]; [reflexivity|]. cbn [String.append write_char]. rewrite IH, sapp_assoc. reflexivity. Qed.
Lemma named_file_ok fcn f : named_file fcn f ->
  replace "/" "-OV-" (replace "\" "" (replace "}" "" (replace "{" "" (replace "\mathrm" "" fcn)))) = f /\ has_char "/" f = false.
Proof.
  intros [(-> & (A & B & C & D))|[(-> & (A & B & C & D))|[(a & b & -> & -> & (A & B & C & D) & (A' & B' & C' & D'))|(a & b & -> & -> & (A & B & C & D) & (A' & B' & C' & D') & N)]]]; rewrite !(replace_write).
  - rewrite (no_backslash "" f B), !(write_absent _ _ f) by assumption. split; [reflexivity|exact A].
  - assert (X1 : replace "\mathrm" "" ("\mathrm{" ++ f ++ "}") = "{" ++ f ++ "}").
    { change ("\mathrm{" ++ f ++ "}") with ("\mathrm" ++ ("{" ++ f ++ "}")). rewrite (replace_hit "\mathrm" "") by discriminate. rewrite (no_backslash "" ("{" ++ f ++ "}")); [reflexivity|]. rewrite !has_app, B. reflexivity. }
    assert (X2 : write_char "{" "" ("{" ++ f ++ "}") = f ++ "}") by (rewrite !write_app, (write_absent _ _ f) by assumption; reflexivity).
    assert (X3 : write_char "}" "" (f ++ "}") = f) by (rewrite !write_app, (write_absent _ _ f) by assumption; apply sapp_nil_r).
    rewrite X1, X2, X3, !(write_absent _ _ f) by assumption. split; [reflexivity|exact A].
  - rewrite no_backslash by (rewrite !has_app, B, B'; reflexivity).
    assert (X : forall c n, has_char c "\{}" = true -> write_char c n (a ++ "/" ++ b) = a ++ "/" ++ b).
    { intros c n Y. apply write_absent. rewrite !has_app. destruct (Ascii.eqb_spec c "\"%char) as [->|N1]; [rewrite B, B'; reflexivity|]. destruct (Ascii.eqb_spec c "{"%char) as [->|N2]; [rewrite C, C'; reflexivity|].
      destruct (Ascii.eqb_spec c "}"%char) as [->|N3]; [rewrite D, D'; reflexivity|]. cbn [has_char] in Y. apply Ascii.eqb_neq in N1, N2, N3. rewrite N1, N2, N3 in Y. discriminate Y. }
    rewrite !X by reflexivity. split; [|rewrite !has_app, A, A'; reflexivity]. rewrite !write_app, (write_absent _ _ a), (write_absent _ _ b) by assumption. reflexivity.
  - rewrite (replace_none _ _ _ N).
    assert (X1 : write_char "{" "" ("\" ++ a ++ "{" ++ b ++ "}") = "\" ++ a ++ b ++ "}") by (rewrite !write_app, (write_absent _ _ a), (write_absent _ _ b) by assumption; reflexivity).
    assert (X2 : write_char "}" "" ("\" ++ a ++ b ++ "}") = "\" ++ a ++ b) by (rewrite !write_app, (write_absent _ _ a), (write_absent _ _ b) by assumption; cbn [write_char]; cbn; rewrite sapp_nil_r; reflexivity).
    assert (X3 : write_char "\" "" ("\" ++ a ++ b) = a ++ b) by (rewrite !write_app, (write_absent _ _ a), (write_absent _ _ b) by assumption; reflexivity).
    rewrite X1, X2, X3, write_absent by (rewrite has_app, A, A'; reflexivity). split; [reflexivity|]. rewrite has_app, A, A'. reflexivity.
Qed.
(** The function of a quantity: its text; its file name without the TeX of the function. *)
Theorem C183_function : forall fcn f other p u dimless nl d, l_path other = [p] -> component p -> l_units other = Some u -> named_file fcn f ->
  exists l, mathfcn_label fcn other dimless nl d = Ok l /\ l_path l = [f ++ "-" ++ p] /\
    l_tex l = spaced " \, " ("\mathrm{" ++ fcn ++ "}(" ++ l_tex other ++ ")") /\
    let shown := if dimless : bool then "\mathrm{\#}" else "\mathrm{" ++ fcn ++ "}\left(" ++ u ++ "\right)" in
    l_units l = Some shown /\ described d ("$" ++ l_tex l ++ (if nl : bool then " $" ++ line_feed ++ "$ " else " \; ") ++ "\left[" ++ shown ++ "\right]$") (l_str l).
Proof.
  intros fcn f other p u dimless nl d HP (P1 & P2 & P3) HU NF. destruct (named_file_ok fcn f NF) as [F1 F2]. unfold mathfcn_label. cbv zeta. rewrite HU, F1.
  assert (MK : mkpath (f ++ "-" ++ path_str (l_path other)) = [f ++ "-" ++ p]).
  { rewrite HP. apply mkpath_single; [rewrite !has_app, F2, P1; reflexivity|destruct f; discriminate|destruct f as [|c [|c' f]]; discriminate]. }
  rewrite MK. destruct dimless; cbn [option_map]; (eexists; split; [reflexivity|]; cbn [l_path l_tex l_units l_str]; split; [reflexivity|]; split; [rewrite replace_write; reflexivity|]; split; [reflexivity|]);
  (match goal with |- described d ?x (with_description d ?y) => replace y with x; [apply described_ok|] end); destruct nl; cbn [String.append]; repeat (rewrite sapp_assoc; cbn [String.append]); reflexivity.
Qed.
Theorem C183_absolute_value : forall other p u nl d, l_path other = [p] -> component p -> l_units other = Some u ->
  exists l, abs_label other nl d = Ok l /\ l_path l = ["abs-" ++ p] /\ l_tex l = "\left|" ++ l_tex other ++ "\right|" /\ l_units l = Some u /\
    described d ("$" ++ l_tex l ++ (if nl : bool then " $" ++ line_feed ++ "$ " else " \; ") ++ "\left[" ++ u ++ "\right]$") (l_str l).
Proof.
  intros other p u nl d HP (P1 & P2 & P3) HU. unfold abs_label. cbv zeta. rewrite HU. eexists. split; [reflexivity|]. cbn [l_path l_tex l_units l_str].
  split; [rewrite HP; apply mkpath_single; [exact P1|discriminate|discriminate]|]. split; [reflexivity|]. split; [reflexivity|].
  (match goal with |- described d ?x (with_description d ?y) => replace y with x; [apply described_ok|] end); destruct nl; cbn [String.append]; repeat (rewrite sapp_assoc; cbn [String.append]); reflexivity.
Qed.
(** The labels of quantities: units and text, on one line or two. *)
Theorem C183_units_line : forall l0 nl d, exists l, texlabel lower upper l0 None None nl d = Ok l /\ l_tex l = one_tex l0 /\ exists u, l_units l = Some u /\
    described d ("$" ++ l_tex l ++ (if nl : bool then " $" ++ line_feed ++ "$ " else " \; ") ++ "\left[" ++ u ++ "\right]$") (l_str l).
Proof.
  intros l0 nl d. unfold texlabel. cbn [option_map negb]. eexists. split; [reflexivity|]. cbn [l_tex l_units l_str]. split; [reflexivity|]. eexists. split; [reflexivity|].
  (match goal with |- described d ?x (with_description d ?y) => replace y with x; [apply described_ok|] end); destruct nl; cbn [String.append]; repeat (rewrite sapp_assoc; cbn [String.append]); reflexivity.
Qed.

(* ------------------------------------------------------------ distances, free text, dates, sunspots, correlations *)
Definition distance_units : list (string * string) := [("rs", "R_{\bigodot}"); ("re", "R_{\oplus}"); ("au", "\mathrm{AU}"); ("m", "m"); ("km", "km")].
Theorem C183_distance : forall units d,
  (forall t, In (lower units, t) distance_units -> exists l, distance2sun_label lower units d = Ok l /\ l_units l = Some t /\ l_path l = ["distance2sun"] /\
     described d ("$\mathrm{Distance \; to \; Sun} \; [\mathrm{" ++ t ++ "}]$") (l_str l)) /\
  ((forall t, ~ In (lower units, t) distance_units) -> ~ In (lower units) (map snd distance_units) -> distance2sun_label lower units d = Err NotImplementedError).
Proof.
  intros units d. unfold distance2sun_label. cbv zeta. generalize (lower units). intro k. split.
  - intros t H. cbn in H. destruct H as [E|[E|[E|[E|[E|[]]]]]]; injection E as <- <-; (eexists; split; [reflexivity|]; split; [reflexivity|]; split; [reflexivity|]; apply described_ok).
  - intros F G. assert (A : get [("rs", "R_{\bigodot}"); ("re", "R_{\oplus}"); ("au", "\mathrm{AU}")] k k = k).
    { unfold get. cbn [assoc]. destruct (String.eqb_spec "rs" k) as [<-|_]; [exfalso; eapply F; left; reflexivity|]. destruct (String.eqb_spec "re" k) as [<-|_]; [exfalso; eapply F; right; left; reflexivity|].
      destruct (String.eqb_spec "au" k) as [<-|_]; [exfalso; eapply F; do 2 right; left; reflexivity|]. reflexivity. }
    rewrite A. destruct (mem_str k _) eqn:E; [|reflexivity]. exfalso. apply mem_str_In in E. apply G. exact E.
Qed.

Lemma no_bracket (A r : string) : has_char "[" A = false -> Labels.contains "[]" (A ++ r) = Labels.contains "[]" r.
Proof.
  induction A as [|c A IH]; intro F; [reflexivity|]. cbn [has_char] in F. apply orb_false_elim in F. destruct F as [F1 F2]. cbn [String.append Labels.contains]. rewrite (IH F2).
  cbn [String.prefix]. destruct (ascii_dec "[" c) as [<-|_]; [discriminate F1|]. reflexivity.
Qed.
Lemma contains_tail a b s : Labels.contains b s = false -> Labels.contains (a ++ b) s = false.
Proof.
  induction a as [|c a IH] in s |- *; intro F; [exact F|]. induction s as [|d s IHs].
  - reflexivity.
  - assert (F' : Labels.contains b s = false) by (cbn [Labels.contains] in F; apply orb_false_elim in F; apply F).
    cbn [Labels.contains String.append] in *. rewrite (IHs F'), orb_false_r. cbn [String.prefix]. destruct (ascii_dec c d) as [_|_]; [|reflexivity].
    pose proof (IH s F') as G. destruct s; cbn [Labels.contains] in G; apply orb_false_elim in G; apply G.
Qed.
Lemma empty_units A : has_char "[" A = false -> replace "\; []" "" (A ++ "\; []$") = A ++ "$".
Proof.
  unfold replace. induction A as [|c A IH]; intro F; [reflexivity|]. cbn [has_char] in F. apply orb_false_elim in F. destruct F as [F1 F2]. cbn [String.append replace_go].
  assert (P : String.prefix "\; []" (String c (A ++ "\; []$")) = false).
  { destruct (String.prefix "\; []" (String c (A ++ "\; []$"))) eqn:E; [|reflexivity]. exfalso. revert E. clear IH. cbn [String.prefix].
    destruct (ascii_dec "\" c) as [_|]; [|discriminate]. destruct A as [|c1 A]; [cbn; discriminate|]. cbn [String.append String.prefix]. destruct (ascii_dec ";" c1) as [_|]; [|discriminate].
    cbn [has_char] in F2. apply orb_false_elim in F2. destruct F2 as [F2 F3].
    destruct A as [|c2 A]; [cbn; discriminate|]. cbn [String.append String.prefix]. destruct (ascii_dec " " c2) as [_|]; [|discriminate].
    cbn [has_char] in F3. apply orb_false_elim in F3. destruct F3 as [F3 F4].
    destruct A as [|c3 A]; [cbn; discriminate|]. cbn [String.append String.prefix]. destruct (ascii_dec "[" c3) as [<-|]; [|discriminate]. cbn [has_char] in F4. discriminate F4. }
  rewrite P. f_equal. exact (IH F2).
Qed.
(** A free label shows the text given, with the unit translated if it is a known one, and no brackets if there is none. *)
Theorem C183_manual : forall tex unit pth d, has_char "$" tex = false -> has_char "[" tex = false ->
  let l := manual_label tex unit pth d in
  l_tex l = tex /\
  (strip "$" (get inU unit unit) = "" -> described d ("$\mathrm{" ++ spaced " \; " tex ++ "} $") (l_str l)) /\
  (forall u, strip "$" (get inU unit unit) = u -> has_char "[" u = false -> (match u with String "]" _ => False | "" => False | _ => True end) ->
     described d ("$\mathrm{" ++ spaced " \; " tex ++ "} \; [" ++ u ++ "]$") (l_str l)) /\
  (pth = None -> component (spaced "-" tex) -> l_path l = [spaced "-" tex]) /\ (forall q, pth = Some q -> component q -> l_path l = [q]).
Proof.
  intros tex unit pth d F1 F2 l.
  assert (ST : strip "$" tex = tex).
  { unfold strip. assert (H : forall c, has_char c tex = true -> has_char c "$" = false) by (intros c H; cbn [has_char]; destruct (Ascii.eqb_spec c "$"%char) as [->|_]; [rewrite F1 in H; discriminate H|reflexivity]).
    assert (RS : forall t, has_char "$" t = false -> rstrip "$" t = t).
    { induction t as [|c t IH]; intro G; [reflexivity|]. cbn [has_char] in G. apply orb_false_elim in G. destruct G as [G1 G2]. cbn [rstrip]. rewrite (IH G2).
      assert (Q : has_char c "$" = false) by (cbn [has_char]; rewrite Ascii.eqb_sym, G1; reflexivity). rewrite Q, andb_false_r. reflexivity. }
    destruct tex as [|c t]; [reflexivity|]. cbn [lstrip]. rewrite (H c) by (cbn [has_char]; rewrite Ascii.eqb_refl; reflexivity). apply RS, F1. }
  unfold l, manual_label. rewrite ST. cbn [l_tex l_path l_str]. split; [reflexivity|].
  assert (FB : has_char "[" ("$\mathrm{" ++ spaced " \; " tex ++ "} ") = false) by (rewrite !has_app; unfold spaced; rewrite write_free by (assumption || reflexivity); reflexivity).
  split; [|split; [|split]].
  - intro U. rewrite U, replace_write. change (write_char " " " \; " tex) with (spaced " \; " tex).
    assert (E : "$\mathrm{" ++ spaced " \; " tex ++ "} \; [" ++ "" ++ "]$" = ("$\mathrm{" ++ spaced " \; " tex ++ "} ") ++ "\; []$") by (rewrite !sapp_assoc; reflexivity).
    rewrite E, (empty_units _ FB), !sapp_assoc. apply described_ok.
  - intros u U FU HU. rewrite U, replace_write. change (write_char " " " \; " tex) with (spaced " \; " tex). rewrite replace_none; [apply described_ok|].
    apply (contains_tail "\; " "[]"). assert (E : "$\mathrm{" ++ spaced " \; " tex ++ "} \; [" ++ u ++ "]$" = ("$\mathrm{" ++ spaced " \; " tex ++ "} ") ++ ("\; " ++ ("[" ++ u ++ "]$"))) by (rewrite !sapp_assoc; reflexivity).
    rewrite E, (no_bracket _ _ FB), no_bracket by reflexivity. cbn [String.append Labels.contains]. rewrite (no_bracket u "]$" FU). cbn [Labels.contains String.prefix]. cbn. destruct u as [|c u]; [destruct HU|]. cbn [String.append String.prefix].
    destruct (ascii_dec "]" c) as [<-|_]; [destruct HU|reflexivity].
  - intros -> (C1 & C2 & C3). rewrite replace_write. apply mkpath_single; assumption.
  - intros q -> (C1 & C2 & C3). apply mkpath_single; assumption.
Qed.

Theorem C183_dates : forall kind d, let l := datetime_label kind d in
  l_tex l = "\mathrm{" ++ spaced " \; " kind ++ "}" /\ described d ("$\mathrm{" ++ spaced " \; " kind ++ "}$") (l_str l).
Proof.
  intros kind d l. unfold l, datetime_label. cbv zeta. cbn [l_tex l_str]. rewrite replace_write. split; [reflexivity|].
  (match goal with |- described d ?x (with_description d ?y) => replace y with x; [apply described_ok|] end). unfold spaced. cbn [String.append]. repeat (rewrite sapp_assoc; cbn [String.append]). reflexivity.
Qed.

Definition sunspot_texts : list (string * string) :=
  [("M", "\mathrm{Monthly \; SSN}"); ("M13", "\mathrm{13 \; Month \; Smoothed \; SSN}"); ("D", "\mathrm{Daily \; SSN}"); ("Y", "\mathrm{Annual \; SSN}");
   ("NM", "\mathrm{Normalized \; Monthly \; SSN}"); ("NM13", "\mathrm{Normalized \; 13 \; Month \; Smoothed \; SSN}"); ("ND", "\mathrm{Normalized \; Daily \; SSN}"); ("NY", "\mathrm{Normalized \; Yearly \; SSN}")].
Theorem C183_sunspots : forall key d l, ssn_label key d = Ok l -> In (upper key, l_tex l) sunspot_texts /\ l_path l = [upper key ++ "ssn"] /\ described d ("$" ++ l_tex l ++ " \; [\#]$") (l_str l).
Proof.
  intros key d l. unfold ssn_label. cbv zeta. generalize (upper key). intros k H. destruct (assoc k ssn_kinds) as [x|] eqn:A; [|discriminate]. apply assoc_in in A.
  assert (H' : mklabel (replace " " " \; " ("\mathrm{" ++ x ++ " SSN}")) (Some (get inU "dimless" "")) (mkpath (k ++ "ssn")) (with_description d ("$" ++ replace " " " \; " ("\mathrm{" ++ x ++ " SSN}") ++ " \; [\#]$")) = l) by congruence. subst l. clear H. cbn [l_tex l_path l_str].
  cbn [ssn_kinds In] in A. repeat (destruct A as [A|A]; [injection A as <- <-; split; [repeat (first [left; reflexivity|right])|split; [reflexivity|apply described_ok]]|]). destruct A.
Qed.

Theorem C183_correlation_file : forall a b p q method short d l, op_path a = p -> op_path b = q -> has_char "/" p = false -> has_char "/" q = false -> has_char "/" method = false ->
  xcorr_label (Some a) (Some b) method short d = Ok l ->
  l_path l = ["Xcorr" ++ title method ++ "-" ++ spaced "-" p ++ "-" ++ spaced "-" q] /\ l_units l = Some "\#" /\ described d ("$" ++ l_tex l ++ " \; [\#]$") (l_str l).
Proof.
  intros a b p q method short d l <- <- FP FQ FM X. cbn [xcorr_label] in X. destruct (if short then _ else _) as [h|e] in X; [|discriminate X]. cbn [bind] in X. injection X as <-. cbn [l_path l_units l_str l_tex].
  split; [|split; [reflexivity|apply described_ok]]. rewrite !replace_write. apply mkpath_single; [|discriminate|discriminate].
  rewrite !has_app. unfold spaced. rewrite !write_free by (assumption || reflexivity). assert (T : has_char "/" (title method) = false) by (rewrite title_keeps; [exact FM|reflexivity]). rewrite T. reflexivity.
Qed.

(** The name after a "$" of a template runs over letters, digits and underscores. *)
Definition name_chars : string := "abcdefghijklmnopqrstuvwxyzABCDEFGHIJKLMNOPQRSTUVWXYZ0123456789_".
Lemma id_char_spec c : is_id_char c = has_char c name_chars.
Proof. destruct c as [[] [] [] [] [] [] [] []]; reflexivity. Qed.
Theorem C183_template_names : forall n v c rest, (forall x, has_char x n = true -> has_char x name_chars = true) -> has_char c name_chars = false -> c <> "$"%char -> has_char "$" rest = false ->
  safe_substitute [(n, v)] ("$" ++ n ++ String c rest) = v ++ String c rest.
Proof.
  intros n v c rest N C D R. unfold safe_substitute. cbn [String.append subst_go Ascii.eqb Bool.eqb].
  assert (T : forall t, has_char "$" t = false -> subst_go [(n, v)] t None = t).
  { induction t as [|x t IH]; intro G; [reflexivity|]. cbn [has_char] in G. apply orb_false_elim in G. destruct G as [G1 G2]. cbn [subst_go]. rewrite Ascii.eqb_sym, G1, (IH G2). reflexivity. }
  assert (G : forall m k, (forall x, has_char x m = true -> has_char x name_chars = true) -> subst_go [(n, v)] (m ++ String c rest) (Some k) =
     (match assoc (k ++ m) [(n, v)] with Some v => v | None => "$" ++ (k ++ m) end) ++ String c rest).
  { induction m as [|x m IH]; intros k M.
    - cbn [String.append subst_go]. rewrite id_char_spec, C. apply Ascii.eqb_neq in D. rewrite D, (T rest R), sapp_nil_r. reflexivity.
    - cbn [String.append subst_go]. rewrite id_char_spec, M by (cbn [has_char]; rewrite Ascii.eqb_refl; reflexivity). rewrite IH.
      + rewrite sapp_assoc. reflexivity.
      + intros y Y. apply M. cbn [has_char]. rewrite Y, orb_true_r. reflexivity. }
  cbn. rewrite (G n "" N). cbn [String.append assoc]. rewrite String.eqb_refl. reflexivity.
Qed.

(** The hypotheses are met by ordinary labels: the logarithm of a speed, its probability above 400. *)
Example C183_ex : exists l, texlabel lower upper (mkmcs "v" "x" "p") None None false None = Ok l /\ exists f, mathfcn_label "\mathrm{log}" l true false None = Ok f /\
  l_path f = ["log-v_x_p"] /\ l_path (probability_label l "> 400" None) = ["prob-v_x_p-GT_400"] /\ l_path (probability_label l ">400" None) = ["prob-v_x_p-GT400"].
Proof. eexists. split; [reflexivity|]. eexists. split; [reflexivity|]. split; [reflexivity|]. split; reflexivity. Qed.
