(** Properties C77-C79 and C116-C120 of plotting/labels. *)
From Coq Require Import List String Ascii Bool Arith NArith Lia.
From Verif Require Import Py PyStr LabelTables Labels.
Import ListNotations.
Open Scope string_scope.

(* ------------------------------------------------------------ strings *)
Lemma sapp_nil_r s : s ++ "" = s.
Proof. induction s as [|c s IH]; simpl; [reflexivity|]. rewrite IH; reflexivity. Qed.
Lemma sapp_assoc a b c : (a ++ b) ++ c = a ++ (b ++ c).
Proof. induction a as [|x a IH]; simpl; [reflexivity|]. rewrite IH; reflexivity. Qed.
Lemma slen_app a b : String.length (a ++ b) = (String.length a + String.length b)%nat.
Proof. induction a as [|x a IH]; simpl; [reflexivity|]. rewrite IH; reflexivity. Qed.

Lemma prefix_iff p : forall s, String.prefix p s = true <-> exists r, s = p ++ r.
Proof.
  induction p as [|c p IH]; intros s; simpl.
  - destruct s; (split; [eauto|reflexivity]).
  - destruct s as [|d s]; simpl.
    + split; [discriminate|]. intros [r E]; discriminate.
    + destruct (ascii_dec c d) as [->|N].
      * rewrite IH. split; intros [r E]; exists r; [rewrite E|injection E as E]; auto.
      * split; [discriminate|]. intros [r E]. injection E as E _. congruence.
Qed.
Lemma prefix_app p r : String.prefix p (p ++ r) = true.
Proof. apply prefix_iff; eauto. Qed.
Lemma prefix_prefix a b s : String.prefix a s = true -> String.prefix b s = true ->
  (String.length a <= String.length b)%nat -> String.prefix a b = true.
Proof.
  revert b s; induction a as [|c a IH]; intros b s Ha Hb L; [destruct b; reflexivity|].
  destruct b as [|d b]; simpl in L; [lia|]. destruct s as [|e s]; [discriminate|].
  simpl in *. destruct (ascii_dec c e) as [->|]; [|discriminate]. destruct (ascii_dec d e) as [->|]; [|discriminate].
  destruct (ascii_dec e e) as [_|]; [|congruence]. apply (IH b s); auto; lia.
Qed.

(* ------------------------------------------------------------ C79 *)

(** Specification: reading from the left, the longest known species name is replaced by its TeX; a character
    at which no known name starts is kept. *)
Inductive translated : string -> string -> Prop :=
| tr_nil : translated "" ""
| tr_known k t rest out :
    In (k, t) trans_species ->
    (forall k' t', In (k', t') trans_species -> (exists r, k ++ rest = k' ++ r) ->
                   (String.length k' <= String.length k)%nat) ->
    translated rest out -> translated (k ++ rest) (t ++ out)
| tr_other c rest out :
    (forall k t r, In (k, t) trans_species -> String c rest <> k ++ r) ->
    translated rest out -> translated (String c rest) (String c out).

Lemma assoc_spec k l : match assoc k l with
  | Some v => In (k, v) l | None => forall v, ~ In (k, v) l end.
Proof.
  induction l as [|[a b] l IH]; simpl; [tauto|].
  destruct (String.eqb_spec a k) as [->|N]; [left; reflexivity|].
  destruct (assoc k l) as [v|]; [right; exact IH|].
  intros v [E|H]; [congruence|exact (IH v H)].
Qed.

Lemma species_go_skip k : forall rest, species_go (k ++ rest) (String.length k) = species_go rest 0.
Proof. induction k as [|c k IH]; intros rest; simpl; [reflexivity|]. apply IH. Qed.

(** no name of the alternation is a prefix of a later one, and none is empty *)
Fixpoint no_prefix_later (l : list string) : bool :=
  match l with [] => true | k :: r => forallb (fun k' => negb (String.prefix k k')) r && no_prefix_later r end.
Lemma species_names_ok : no_prefix_later species_names = true /\ forallb (fun k => negb (String.eqb k "")) species_names = true.
Proof. split; vm_compute; reflexivity. Qed.

Lemma find_longest l s k : no_prefix_later l = true -> find (fun k => String.prefix k s) l = Some k ->
  In k l /\ String.prefix k s = true /\
  forall k', In k' l -> String.prefix k' s = true -> (String.length k' <= String.length k)%nat.
Proof.
  induction l as [|a l IH]; intros Hn Hf; simpl in *; [discriminate|].
  apply andb_prop in Hn as [H1 H2].
  destruct (String.prefix a s) eqn:E.
  - injection Hf as <-. split; [left; reflexivity|]. split; [exact E|].
    intros k' [<-|Hk'] Hp; [lia|].
    destruct (Nat.le_gt_cases (String.length k') (String.length a)) as [|L]; [assumption|].
    exfalso. rewrite forallb_forall in H1. specialize (H1 k' Hk').
    rewrite (prefix_prefix a k' s E Hp) in H1 by lia. discriminate.
  - destruct (IH H2 Hf) as (I1 & I2 & I3). split; [right; exact I1|]. split; [exact I2|].
    intros k' [<-|Hk'] Hp; [congruence|]. apply I3; assumption.
Qed.

Lemma species_names_In k : In k species_names <-> exists t, In (k, t) trans_species.
Proof.
  unfold species_names. rewrite <- in_rev, sort_In, in_map_iff. split.
  - intros ([a b] & <- & H). exists b; exact H.
  - intros [t H]. exists (k, t). split; [reflexivity|exact H].
Qed.

Lemma make_species_go n : forall s, (String.length s <= n)%nat -> translated s (species_go s 0).
Proof.
  induction n as [|n IH]; intros s L.
  - destruct s; simpl in L; [constructor|lia].
  - destruct s as [|c s]; [constructor|]. simpl in L.
    destruct species_names_ok as [Hn Hne].
    cbn [species_go]. destruct (find (fun k => String.prefix k (String c s)) species_names) as [k|] eqn:F.
    + destruct (find_longest _ _ _ Hn F) as (I1 & I2 & I3).
      rewrite forallb_forall in Hne. specialize (Hne k I1).
      apply prefix_iff in I2 as [r E].
      destruct k as [|d k]; [discriminate|]. simpl in E. injection E as -> ->.
      change (Nat.pred (String.length (String d k))) with (String.length k). rewrite species_go_skip.
      change (String d (k ++ r)) with (String d k ++ r).
      apply species_names_In in I1 as [t Ht].
      unfold get. pose proof (assoc_spec (String d k) trans_species) as A.
      destruct (assoc (String d k) trans_species) as [v|]; [|exfalso; exact (A t Ht)].
      apply tr_known; [exact A| |].
      * intros k' t' Hk' [r' E']. apply I3; [apply species_names_In; eauto|]. apply prefix_iff. exists r'. exact E'.
      * apply IH. rewrite slen_app in L. lia.
    + apply tr_other; [|apply IH; lia].
      intros k t r Hk E. assert (Hin : In k species_names) by (apply species_names_In; eauto).
      pose proof (find_none _ _ F k Hin) as P. cbv beta in P. rewrite E, prefix_app in P. discriminate.
Qed.

Lemma sapp_inj_len a : forall b x y, a ++ x = b ++ y -> String.length a = String.length b -> a = b /\ x = y.
Proof.
  induction a as [|c a IH]; intros [|d b] x y E L; simpl in *; try discriminate; [auto|].
  injection E as -> E. injection L as L. destruct (IH b x y E L) as [-> ->]. auto.
Qed.

Lemma species_table_functional k t t' : In (k, t) trans_species -> In (k, t') trans_species -> t = t'.
Proof.
  assert (N : NoDup (map fst trans_species)).
  { assert (H : forallb (fun k => Nat.eqb (count_occ string_dec (map fst trans_species) k) 1) (map fst trans_species) = true)
      by (vm_compute; reflexivity).
    apply (NoDup_count_occ' string_dec). rewrite forallb_forall in H.
    intros x Hx. apply Nat.eqb_eq, H, Hx. }
  revert N. generalize trans_species. induction l as [|[a b] l IH]; simpl; intros N H H'; [tauto|].
  inversion N as [|? ? N1 N2]; subst.
  destruct H as [E|H]; destruct H' as [E'|H'].
  - congruence.
  - injection E as -> ->. exfalso; apply N1, in_map_iff. exists (k, t'); auto.
  - injection E' as -> ->. exfalso; apply N1, in_map_iff. exists (k, t); auto.
  - auto.
Qed.

(** the specification determines the translation *)
Lemma translated_fun s o1 : translated s o1 -> forall o2, translated s o2 -> o1 = o2.
Proof.
  induction 1 as [|k t rest out Hk Hl Hr IH|c rest out Hn Hr IH]; intros o2 H2.
  - inversion H2 as [|k t rest out Hk Hl Hr E|]; subst; [reflexivity|].
    destruct k; [|discriminate]. exfalso. destruct species_names_ok as [_ Hne].
    rewrite forallb_forall in Hne. assert (I : In "" species_names) by (apply species_names_In; eauto).
    specialize (Hne "" I). discriminate.
  - inversion H2 as [E|k' t' rest' out' Hk' Hl' Hr' E|c rest' out' Hn' Hr' E]; subst.
    + destruct k; [|discriminate]. exfalso. destruct species_names_ok as [_ Hne].
      rewrite forallb_forall in Hne. assert (I : In "" species_names) by (apply species_names_In; eauto).
      specialize (Hne "" I). discriminate.
    + assert (L1 : (String.length k' <= String.length k)%nat) by (apply (Hl k' t' Hk'); exists rest'; auto).
      assert (L2 : (String.length k <= String.length k')%nat) by (apply (Hl' k t Hk); exists rest; auto).
      destruct (sapp_inj_len k' k _ _ E) as [-> ->]; [lia|].
      rewrite (species_table_functional k t' t Hk' Hk), (IH out' Hr'). reflexivity.
    + exfalso. exact (Hn' k t rest Hk E).
  - inversion H2 as [E|k' t' rest' out' Hk' Hl' Hr' E|c' rest' out' Hn' Hr' E]; subst.
    + exfalso. exact (Hn k' t' rest' Hk' (eq_sym E)).
    + rewrite (IH out' Hr'). reflexivity.
Qed.

(** C79: the species part of a label is exactly the longest-match translation of the text. *)
Theorem C79_species_longest_match s out : make_species s = out <-> translated s out.
Proof.
  assert (H : translated s (make_species s)) by (apply (make_species_go (String.length s)); lia).
  split; [intros <-; exact H|]. intros H2. exact (translated_fun _ _ H _ H2).
Qed.

(** Text in which no species name occurs is unchanged. *)
Theorem C79_unknown_text s :
  (forall k t a b, In (k, t) trans_species -> s <> a ++ k ++ b) -> make_species s = s.
Proof.
  intros H. apply C79_species_longest_match. induction s as [|c s IH]; [constructor|].
  apply tr_other.
  - intros k t r Hk E. apply (H k t "" r Hk). exact E.
  - apply IH. intros k t a b Hk E. apply (H k t (String c a) b Hk). rewrite E. reflexivity.
Qed.

Example C79_witness : make_species "p1,a-He,3He;X" = "p_1,\alpha-\mathrm{He},^{3}\mathrm{He};X".
Proof. reflexivity. Qed.

(* ------------------------------------------------------------ C77 *)
Lemma str_ltb_iff a b : str_ltb a b = true <-> str_leb a b = true /\ a <> b.
Proof.
  unfold str_ltb. rewrite andb_true_iff, negb_true_iff, String.eqb_neq. tauto.
Qed.

(** C77 (the part that holds): [==], [<] and [>] compare the displayed strings; [==] is an equivalence that
    hashing respects, [<] is a strict order, [>] its converse, and of [a < b], [a == b], [a > b] exactly one holds. *)
Theorem C77_strict_order_partial (a b c : label) (hash : string -> nat) :
  py_eq a a = true /\ py_eq a b = py_eq b a /\
  (py_eq a b = true -> py_eq b c = true -> py_eq a c = true) /\
  (py_eq a b = true <-> l_str a = l_str b) /\
  (py_eq a b = true -> py_hash hash a = py_hash hash b) /\
  py_lt a a = false /\ (py_lt a b = true -> py_lt b c = true -> py_lt a c = true) /\
  py_gt a b = py_lt b a /\
  (py_lt a b = true /\ py_eq a b = false /\ py_gt a b = false \/
   py_lt a b = false /\ py_eq a b = true /\ py_gt a b = false \/
   py_lt a b = false /\ py_eq a b = false /\ py_gt a b = true).
Proof.
  unfold py_eq, py_lt, py_gt, py_hash, eq_, gt_.
  split; [apply String.eqb_refl|]. split; [apply String.eqb_sym|].
  split; [rewrite !String.eqb_eq; congruence|]. split; [apply String.eqb_eq|].
  split; [rewrite String.eqb_eq; congruence|].
  split; [unfold str_ltb; rewrite String.eqb_refl, andb_false_r; reflexivity|].
  split.
  { rewrite !str_ltb_iff. intros [H1 H2] [H3 H4]. split; [eapply str_leb_trans; eassumption|].
    intros E. apply H2, str_leb_antisym; [exact H1|rewrite E; exact H3]. }
  split; [reflexivity|].
  unfold str_ltb. rewrite (String.eqb_sym (l_str b) (l_str a)).
  destruct (String.eqb_spec (l_str a) (l_str b)) as [E|N].
  - rewrite !andb_false_r. auto.
  - rewrite !andb_true_r.
    destruct (str_leb (l_str a) (l_str b)) eqn:L1; destruct (str_leb (l_str b) (l_str a)) eqn:L2; auto.
    + exfalso. apply N, str_leb_antisym; assumption.
    + destruct (str_leb_total (l_str a) (l_str b)); congruence.
Qed.

(** C77 is false for [<=] and [>=]: they coincide with the strict comparisons, so no label is <= or >= itself
    although it equals itself. *)
Theorem C77_le_ge_refuted (a b : label) :
  py_le a b = py_lt a b /\ py_ge a b = py_gt a b /\
  py_le a a = false /\ py_ge a a = false /\ py_eq a a = true.
Proof.
  unfold py_le, py_lt, py_ge, py_gt, py_eq, le_, gt_, eq_, str_ltb.
  rewrite String.eqb_refl, andb_false_r. auto.
Qed.

Example C77_witness : exists a b,
  texlabel (fun s => s) (fun s => s) (mkmcs "n" "" "p") None None false None = Ok a /\
  texlabel (fun s => s) (fun s => s) (mkmcs "v" "x" "p") None None false None = Ok b /\
  py_lt a b = true /\ py_gt a b = false.
Proof. do 2 eexists. repeat split. Qed.

(* ------------------------------------------------------------ replace *)
Lemma contains_iff sub s : contains sub s = true <-> exists a b, s = a ++ sub ++ b.
Proof.
  induction s as [|c s IH]; cbn [contains].
  - rewrite orb_false_r, prefix_iff. split.
    + intros [r E]. exists "", r. exact E.
    + intros (a & b & E). destruct a; [exists b; exact E|discriminate].
  - rewrite orb_true_iff, prefix_iff, IH. split.
    + intros [[r E]|(a & b & ->)]; [exists "", r; exact E|exists (String c a), b; reflexivity].
    + intros (a & b & E). destruct a as [|d a]; [left; exists b; exact E|].
      right. simpl in E. injection E as -> ->. eauto.
Qed.
Lemma replace_none old new s : contains old s = false -> replace old new s = s.
Proof.
  unfold replace. induction s as [|c s IH]; [reflexivity|].
  cbn [contains]. intros H. apply orb_false_elim in H as [H1 H2]. cbn [replace_go]. rewrite H1, IH by exact H2. reflexivity.
Qed.
Lemma replace_go_skip old new k rest : replace_go old new (k ++ rest) (String.length k) = replace_go old new rest 0.
Proof. induction k as [|c k IH]; simpl; [reflexivity|exact IH]. Qed.

Lemma replace_go_free c old new s : has_char c new = false -> has_char c s = false ->
  forall k, has_char c (replace_go old new s k) = false.
Proof.
  intros Hn. induction s as [|d s IH]; intros Hs k; [reflexivity|].
  simpl in Hs. apply orb_false_elim in Hs as [H1 H2]. cbn [replace_go]. destruct k as [|k]; [|apply IH, H2].
  destruct (String.prefix old (String d s)).
  - rewrite has_char_app, Hn. apply IH, H2.
  - simpl. rewrite H1. apply IH, H2.
Qed.
Lemma replace_free c old new s : has_char c new = false -> has_char c s = false -> has_char c (replace old new s) = false.
Proof. intros; apply replace_go_free; assumption. Qed.

Lemma replace_removes c new s : has_char c new = false -> has_char c (replace (String c "") new s) = false.
Proof.
  intros Hn. unfold replace. induction s as [|d s IH]; [reflexivity|].
  assert (P : String.prefix (String c "") (String d s) = if ascii_dec c d then true else false).
  { simpl. destruct (ascii_dec c d); [|reflexivity]. destruct s; reflexivity. }
  cbn [replace_go]. rewrite P. cbn [String.length Nat.pred].
  destruct (ascii_dec c d) as [->|N].
  - rewrite has_char_app, Hn. exact IH.
  - simpl. rewrite IH. destruct (Ascii.eqb_spec c d); [congruence|reflexivity].
Qed.

Lemma lstrip_free c chars s : has_char c s = false -> has_char c (lstrip chars s) = false.
Proof.
  induction s as [|d s IH]; intros H; [reflexivity|]. cbn [lstrip].
  destruct (has_char d chars); [|exact H]. simpl in H. apply orb_false_elim in H as [_ H]. apply IH, H.
Qed.
Lemma rstrip_free c chars s : has_char c s = false -> has_char c (rstrip chars s) = false.
Proof.
  induction s as [|d s IH]; intros H; [reflexivity|]. simpl in H. apply orb_false_elim in H as [H1 H2].
  cbn [rstrip]. cbv zeta. destruct (String.eqb (rstrip chars s) "" && has_char d chars)%bool; [reflexivity|].
  simpl. rewrite H1. apply IH, H2.
Qed.
Lemma strip_free c chars s : has_char c s = false -> has_char c (strip chars s) = false.
Proof. intros; apply rstrip_free, lstrip_free; assumption. Qed.

(* ------------------------------------------------------------ C116 *)
Lemma one_path_free l c : In c ["/"; ","; "."]%char -> has_char c (one_path l) = false.
Proof.
  intros Hc. unfold one_path. cbv zeta. do 3 apply strip_free.
  destruct Hc as [<-|[<-|[<-|[]]]].
  - do 5 (apply replace_free; [reflexivity|]).
    rewrite has_char_join by reflexivity. simpl existsb. rewrite !replace_removes by reflexivity. reflexivity.
  - do 4 (apply replace_free; [reflexivity|]). apply replace_removes; reflexivity.
  - apply replace_removes; reflexivity.
Qed.

Lemma mkpath_one s : has_char "/" s = false -> has_char "." s = false -> mkpath s = if String.eqb s "" then [] else [s].
Proof.
  intros H1 H2. unfold mkpath. rewrite split_on_nochar by exact H1. simpl.
  destruct (String.eqb_spec s "") as [->|N]; [reflexivity|].
  destruct (String.eqb_spec s ".") as [->|N']; [discriminate|reflexivity].
Qed.

(** A file-system component that cannot leave or split the directory it is placed in. *)
Definition plain_component (c : string) : Prop :=
  c <> "" /\ has_char "/" c = false /\ has_char "." c = false /\ has_char "," c = false.

(** C116: whatever the measurement, component and species strings, and for single and ratio labels alike, the
    save path of a label is at most one plain component -- no separator, no dot (hence never ".."), no comma --
    followed, exactly if the label is normalised, by the directory of its normalisation. *)
Theorem C116_safe_path lower upper l0 l1 axnorm nl d l :
  texlabel lower upper l0 l1 axnorm nl d = Ok l ->
  exists head, l_path l = app head (match axnorm with None => [] | Some a => [upper (lower a) ++ "norm"] end) /\
    (List.length head <= 1)%nat /\ Forall plain_component head.
Proof.
  unfold texlabel. cbv zeta. destruct (negb _); [discriminate|].
  assert (P : forall s, (forall c, In c ["/"; ","; "."]%char -> has_char c s = false) ->
     (List.length (mkpath s) <= 1)%nat /\ Forall plain_component (mkpath s)).
  { intros s H. rewrite mkpath_one by (apply H; simpl; auto).
    destruct (String.eqb_spec s "") as [->|N]; [split; [simpl; lia|constructor]|].
    split; [simpl; lia|]. constructor; [|constructor]. repeat split; [exact N|..]; apply H; simpl; auto. }
  assert (Q : forall c, In c ["/"; ","; "."]%char -> has_char c "-OV-" = false).
  { intros c [<-|[<-|[<-|[]]]]; reflexivity. }
  destruct l1 as [l1|]; destruct axnorm as [a|]; cbn [option_map]; intros [= <-]; cbn [l_path].
  - eexists. split; [reflexivity|]. apply P. intros c Hc.
    change (has_char c (one_path l0 ++ "-OV-" ++ one_path l1) = false).
    rewrite !has_char_app, !one_path_free, Q by exact Hc. reflexivity.
  - eexists. split; [symmetry; apply app_nil_r|]. apply P. intros c Hc.
    change (has_char c (one_path l0 ++ "-OV-" ++ one_path l1) = false).
    rewrite !has_char_app, !one_path_free, Q by exact Hc. reflexivity.
  - eexists. split; [reflexivity|]. apply P. intros c Hc. apply one_path_free, Hc.
  - eexists. split; [symmetry; apply app_nil_r|]. apply P. intros c Hc. apply one_path_free, Hc.
Qed.

Example C116_witness : exists l,
  texlabel (fun s => s) (fun s => s) (mkmcs "../../etc" "x" "p1,p2") None (Some "c") false None = Ok l /\
  l_path l = ["-OV--OV-etc_x_p1p2"; "cnorm"].
Proof. eexists. split; reflexivity. Qed.

(* ------------------------------------------------------------ C117 *)

Lemma replace_hit old new r : old <> "" -> replace old new (old ++ r) = new ++ replace old new r.
Proof.
  intros N. unfold replace. destruct old as [|c old]; [contradiction|].
  pose proof (prefix_app (String c old) r) as P.
  change (String c old ++ r) with (String c (old ++ r)) in *. cbn [replace_go]. rewrite P.
  cbn [String.length Nat.pred]. rewrite replace_go_skip. reflexivity.
Qed.

Lemma comparison_lt_gt sp rest : comparison_path sp ("\lt" ++ rest) = comparison_path sp ("\gt" ++ rest).
Proof.
  unfold comparison_path. cbv zeta.
  assert (A : forall o n h, In (o, n) [(">", "GT"); ("<", "LT")] -> In h ["\lt"; "\gt"] ->
    forall x, replace o n (h ++ x) = h ++ replace o n x).
  { intros o n h [[= <- <-]|[[= <- <-]|[]]] [<-|[<-|[]]] x; reflexivity. }
  rewrite (A ">" "GT" "\lt"), (A "<" "LT" "\lt"), (A ">" "GT" "\gt"), (A "<" "LT" "\gt") by (simpl; auto). clear A.
  rewrite (replace_hit "\gt" "GT") by discriminate.
  assert (B : forall x, replace "\gt" "GT" ("\lt" ++ x) = "\lt" ++ replace "\gt" "GT" x) by (intros x; reflexivity).
  rewrite B. rewrite (replace_hit "\lt" "GT") by discriminate.
  assert (C : forall x, replace "\lt" "GT" ("GT" ++ x) = "GT" ++ replace "\lt" "GT" x) by (intros x; reflexivity).
  rewrite C. reflexivity.
Qed.

(** C117 is false: the file names of "less than" and "greater than" plots written with the TeX comparisons
    coincide, whatever the label and the rest of the comparison, for both label classes; the labels shown differ. *)
Theorem C117_lt_gt_same_path_refuted other rest nl d :
  l_path (probability_label other ("\lt" ++ rest) d) = l_path (probability_label other ("\gt" ++ rest) d) /\
  l_path (count_other_label other ("\lt" ++ rest) nl d) = l_path (count_other_label other ("\gt" ++ rest) nl d).
Proof. unfold probability_label, count_other_label; cbn [l_path]. rewrite !comparison_lt_gt. split; reflexivity. Qed.

(** Written with the ASCII signs, "less than" and "greater than" always lead to different file names. *)
Lemma comparison_ascii sp x : (exists y, comparison_path sp ("<" ++ x) = String "L" y) /\
  (exists y, comparison_path sp (">" ++ x) = String "G" y).
Proof.
  unfold comparison_path. cbv zeta.
  assert (A : replace ">" "GT" ("<" ++ x) = "<" ++ replace ">" "GT" x) by reflexivity.
  rewrite A. rewrite (replace_hit "<" "LT"), (replace_hit ">" "GT") by discriminate.
  assert (B : forall y, replace "<" "LT" ("GT" ++ y) = "GT" ++ replace "<" "LT" y) by (intros; reflexivity).
  rewrite B.
  assert (C : forall o n h, In o ["\gt"; "\lt"; "\geq"; "\leq"; "\neq"; "\eq"; "=="; "!="; " "] -> In h ["LT"; "GT"] ->
     forall y, replace o n (h ++ y) = h ++ replace o n y).
  { intros o n h Ho Hh y.
    destruct Ho as [<-|[<-|[<-|[<-|[<-|[<-|[<-|[<-|[<-|[]]]]]]]]]]; destruct Hh as [<-|[<-|[]]]; reflexivity. }
  split; do 8 (rewrite C by (simpl; tauto)); destruct sp;
    rewrite ?C by (simpl; tauto); eexists; reflexivity.
Qed.
Theorem C117_ascii_distinct_partial sp x y :
  comparison_path sp ("<" ++ x) <> comparison_path sp (">" ++ y).
Proof.
  destruct (comparison_ascii sp x) as [[u ->] _]. destruct (comparison_ascii sp y) as [_ [v ->]]. discriminate.
Qed.

(* ------------------------------------------------------------ C78 *)
Lemma base_m_replace l : base_m l = replace "_err" "" (m_ l).
Proof.
  unfold base_m, is_err. destruct (contains "_err" (m_ l)) eqn:E; [reflexivity|].
  symmetry. apply replace_none, E.
Qed.

Definition not_angular (l : mcs) : Prop := ~ In (c_ l) ["lat"; "colat"; "lon"].

Lemma one_units_table l : not_angular l -> one_units l = get trans_units (replace "_err" "" (m_ l)) "???".
Proof.
  intros H. unfold one_units. cbv zeta. rewrite base_m_replace.
  destruct (mem_str (c_ l) ["lat"; "colat"; "lon"]) eqn:E; [|reflexivity].
  apply mem_str_In in E. contradiction.
Qed.

Definition units_of (r : result label) (u : string) : Prop := exists l, r = Ok l /\ l_units l = Some u.

(** C78 (the part that holds): when neither component is an angle, the units of a ratio are "\#" exactly if
    the two single labels show the same units, and otherwise their quotient. *)
Theorem C78_ratio_units_partial lower upper l0 l1 u0 u1 nl d : not_angular l0 -> not_angular l1 ->
  units_of (texlabel lower upper l0 None None nl d) u0 ->
  units_of (texlabel lower upper l1 None None nl d) u1 ->
  units_of (texlabel lower upper l0 (Some l1) None nl d) (if String.eqb u0 u1 then "\#" else u0 ++ "/" ++ u1).
Proof.
  intros H0 H1 (a0 & E0 & U0) (a1 & E1 & U1).
  unfold texlabel in E0, E1. cbn [option_map negb] in E0, E1.
  injection E0 as <-. injection E1 as <-. cbn [l_units] in U0, U1. injection U0 as <-. injection U1 as <-.
  eexists. split; [reflexivity|]. cbn [l_units]. rewrite !one_units_table by assumption. reflexivity.
Qed.

(** C78 is false with angular components: the ratio of a latitude (degrees) to a Cartesian coordinate (Earth
    radii) is labelled dimensionless. *)
Theorem C78_angular_refuted : exists l0 l1 u0 u1,
  units_of (texlabel (fun s => s) (fun s => s) l0 None None false None) u0 /\
  units_of (texlabel (fun s => s) (fun s => s) l1 None None false None) u1 /\ u0 <> u1 /\
  units_of (texlabel (fun s => s) (fun s => s) l0 (Some l1) None false None) "\#".
Proof.
  exists (mkmcs "gse" "lat" ""), (mkmcs "gse" "x" ""). do 2 eexists.
  split; [eexists; split; reflexivity|]. split; [eexists; split; reflexivity|].
  split; [discriminate|eexists; split; reflexivity].
Qed.

Example C78_witness :
  units_of (texlabel (fun s => s) (fun s => s) (mkmcs "v" "x" "p") (Some (mkmcs "n" "" "p")) None false None)
    "\mathrm{km \; s^{-1}}/\mathrm{cm}^{-3}".
Proof. eexists. split; reflexivity. Qed.

(* ------------------------------------------------------------ C118 *)
Lemma replace_shrinks old new s : (String.length new < String.length old)%nat -> contains old s = true ->
  (String.length (replace old new s) < String.length s)%nat.
Proof.
  intros L. assert (Le : forall s k, (String.length (replace_go old new s k) + Nat.min k (String.length s) <= String.length s)%nat).
  { intros t. induction t as [|c t IH]; intros k; [simpl; destruct k; simpl; lia|]. cbn [replace_go String.length].
    destruct k as [|k].
    - destruct (String.prefix old (String c t)) eqn:P.
      + rewrite slen_app. specialize (IH (Nat.pred (String.length old))).
        apply prefix_iff in P as [r P]. assert (Q := f_equal String.length P). rewrite slen_app in Q. simpl in Q. lia.
      + simpl. specialize (IH 0%nat). lia.
    - specialize (IH k). lia. }
  unfold replace. induction s as [|c s IH]; cbn [contains]; intros H.
  - rewrite orb_false_r in H. destruct old; [simpl in L; lia|discriminate].
  - cbn [replace_go]. destruct (String.prefix old (String c s)) eqn:P.
    + rewrite slen_app. specialize (Le s (Nat.pred (String.length old))).
      apply prefix_iff in P as [r P]. assert (Q := f_equal String.length P). rewrite slen_app in Q. simpl in Q |- *. lia.
    + simpl in H |- *. specialize (IH H). lia.
Qed.

Lemma collapse_done f : forall t, (String.length t <= f)%nat -> contains "\,\," (collapse f t) = false.
Proof.
  induction f as [|f IH]; intros t L; simpl.
  - destruct t; [reflexivity|simpl in L; lia].
  - destruct (contains "\,\," t) eqn:E; [|exact E].
    apply IH. pose proof (replace_shrinks "\,\," "\," t ltac:(simpl; lia) E). lia.
Qed.

(** C118: two labels with units can be combined by [ComparisonLable] exactly if the units are the same -- then
    the combination shows those units -- and raises ValueError otherwise; the TeX never has a doubled thin space. *)
Theorem C118_comparison_units lower a b f d ua ub :
  op_units a = Some ua -> op_units b = Some ub -> In (lower f) ["subtract"; "add"; "multiply"] ->
  (ua <> ub -> comparison_label lower a b f d = Err ValueError) /\
  (ua = ub -> exists l, comparison_label lower a b f d = Ok l /\ l_units l = Some ua /\
     contains "\,\," (l_tex l) = false).
Proof.
  intros Ha Hb Hf. unfold comparison_label. rewrite Ha, Hb. split.
  - intros N. destruct (String.eqb_spec ua ub); [contradiction|reflexivity].
  - intros ->. rewrite String.eqb_refl. cbn [bind].
    destruct Hf as [<-|[<-|[<-|[]]]]; cbn [assoc String.eqb Ascii.eqb Bool.eqb];
      eexists; (split; [reflexivity|]); (split; [reflexivity|]); cbn [l_tex];
      apply collapse_done; lia.
Qed.

(** Operands without units (plain strings, manual labels) give the unknown unit and are never refused. *)
Theorem C118_unitless_operand lower a b f d :
  op_units a = None \/ op_units b = None -> In (lower f) ["subtract"; "add"; "multiply"] ->
  units_of (comparison_label lower a b f d) "???".
Proof.
  intros H Hf. unfold comparison_label.
  assert (E : (match op_units a, op_units b with
            | Some u, Some v => if String.eqb u v then Ok u else Err ValueError
            | _, _ => Ok "???" end) = Ok "???").
  { destruct H as [->| ->]; [reflexivity|]. destruct (op_units a); reflexivity. }
  rewrite E. cbn [bind].
  destruct Hf as [<-|[<-|[<-|[]]]]; cbn [assoc String.eqb Ascii.eqb Bool.eqb]; eexists; split; reflexivity.
Qed.

(** The absolute value keeps the units; a dimensionless function drops them. *)
Theorem C118_function_units other u fcn nl d : l_units other = Some u ->
  units_of (abs_label other nl d) u /\ units_of (mathfcn_label fcn other true nl d) "\mathrm{\#}" /\
  units_of (mathfcn_label fcn other false nl d) ("\mathrm{" ++ fcn ++ "}\left(" ++ u ++ "\right)").
Proof.
  intros H. unfold abs_label, mathfcn_label. rewrite H.
  split; [eexists; split; reflexivity|]. split; eexists; split; reflexivity.
Qed.

Example C118_witness : exists a b l,
  texlabel (fun s => s) (fun s => s) (mkmcs "v" "x" "p1") None None false None = Ok a /\
  texlabel (fun s => s) (fun s => s) (mkmcs "w" "par" "p1") None None false None = Ok b /\
  comparison_label (fun s => s) (Lab a) (Lab b) "subtract" None = Ok l /\
  l_tex l = "{{v}_{{X};{p_1}}} - {{w}_{{\parallel};{p_1}}}".
Proof. do 3 eexists. repeat split. Qed.

(* ------------------------------------------------------------ C119 *)

(** C119: a normalised label always shows the dimensionless unit, whatever its quantity; count labels accept
    every normalisation of the histograms; any other normalisation is refused. *)
Theorem C119_normalised lower upper l0 l1 a nl d :
  (In (lower a) ["c"; "r"; "t"; "d"] -> units_of (texlabel lower upper l0 l1 (Some a) nl d) "\#") /\
  (~ In (lower a) ["c"; "r"; "t"; "d"] -> texlabel lower upper l0 l1 (Some a) nl d = Err AssertionError).
Proof.
  unfold texlabel. cbn [option_map]. split; intros H.
  - rewrite (proj2 (mem_str_In _ _) H). cbn [negb]. destruct l1; eexists; split; reflexivity.
  - rewrite (proj2 (mem_str_not _ _) H). reflexivity.
Qed.

Theorem C119_count lower upper norm d :
  let ok := match norm with None => True | Some a => In (lower a) ["c"; "r"; "t"; "d"; "rd"; "cd"] end in
  (ok -> exists l, count_label lower upper norm d = Ok l /\ l_units l = Some "\#" /\
          l_path l = "count" :: match norm with None => [] | Some a => [upper (lower a) ++ "norm"] end) /\
  (~ ok -> count_label lower upper norm d = Err AssertionError).
Proof.
  destruct norm as [a|]; cbv zeta; split; intros H; unfold count_label; cbn [option_map].
  - change (map fst trans_axnorm) with ["c"; "r"; "t"; "d"; "rd"; "cd"].
    rewrite (proj2 (mem_str_In _ _) H). cbn [negb]. eexists. repeat split.
  - change (map fst trans_axnorm) with ["c"; "r"; "t"; "d"; "rd"; "cd"].
    rewrite (proj2 (mem_str_not _ _) H). reflexivity.
  - eexists. repeat split.
  - tauto.
Qed.

Example C119_witness : exists l, count_label (fun s => s) (fun s => s) (Some "cd") None = Ok l /\
  l_tex l = "\mathrm{1D \, Probability \, Density}".
Proof. eexists. split; reflexivity. Qed.

(* ------------------------------------------------------------ C120 *)
Lemma replace_err m : contains "_err" m = false -> replace "_err" "" (m ++ "_err") = m.
Proof.
  unfold replace. induction m as [|c m IH]; [reflexivity|].
  cbn [contains]. intros H. apply orb_false_elim in H as [H1 H2].
  assert (N : String.prefix "_err" (String c m ++ "_err") = false).
  { destruct (String.prefix "_err" (String c m ++ "_err")) eqn:P; [|reflexivity].
    exfalso. destruct (Nat.le_gt_cases 4 (String.length (String c m))) as [L|L].
    - rewrite (prefix_prefix "_err" (String c m) (String c m ++ "_err") P (prefix_app _ _) L) in H1. discriminate.
    - simpl in L. apply prefix_iff in P as [r P].
      destruct m as [|c1 [|c2 [|c3 m]]]; simpl in P; try (injection P; intros; subst; discriminate); simpl in L; lia. }
  change (String c m ++ "_err") with (String c (m ++ "_err")) in *. cbn [replace_go]. rewrite N.
  rewrite (IH H2). reflexivity.
Qed.

Lemma contains_err m : contains "_err" (m ++ "_err") = true.
Proof. apply contains_iff. exists m, "". rewrite sapp_nil_r. reflexivity. Qed.

(** C120: the label of an uncertainty, [m_err], shows the units of [m] itself, and its TeX is the clean-up of
    sigma of the very TeX the quantity is given. *)
Theorem C120_uncertainty_label m c s : contains "_err" m = false ->
  one_units (mkmcs (m ++ "_err") c s) = one_units (mkmcs m c s) /\
  exists raw, one_tex (mkmcs m c s) = clean_tex raw /\
              one_tex (mkmcs (m ++ "_err") c s) = clean_tex ("\sigma(" ++ raw ++ ")").
Proof.
  intros H.
  assert (B1 : base_m (mkmcs (m ++ "_err") c s) = m) by (rewrite base_m_replace; apply replace_err, H).
  assert (B2 : base_m (mkmcs m c s) = m) by (unfold base_m, is_err; cbn [m_]; rewrite H; reflexivity).
  split.
  - unfold one_units. rewrite B1, B2. reflexivity.
  - eexists. unfold one_tex. rewrite B1, B2. unfold is_err. cbn [m_ c_ s_]. rewrite H, contains_err.
    split; reflexivity.
Qed.
Example C120_witness : one_tex (mkmcs "v_err" "x" "p1") = "\sigma({v}_{{X};{p_1}})".
Proof. reflexivity. Qed.
