(** C201-C203: saving figures. *)
From Coq Require Import List String Ascii Bool Arith Lia.
From Verif Require Import Py PyStr SaveFig.
Import ListNotations.
Open Scope string_scope.
Open Scope list_scope.

(* ---------------------------------------------------------------- specification *)
Definition dotless (s : string) : Prop := forall a b, s <> (a ++ "." ++ b)%string.
(** A name without its extension: "fig.old" gives "fig"; "fig", ".fig" and "fig." have none. *)
Inductive stem_of : string -> string -> Prop :=
| extended b e : b <> "" -> e <> "" -> dotless e -> stem_of (b ++ "." ++ e) b
| bare name : name <> "" -> (forall b e, name = (b ++ "." ++ e)%string -> dotless e -> b = "" \/ e = "") -> stem_of name name.
(** The text added to the lower left corner of the png. *)
Definition signed (now : string) : string := ("B. L. Alterman " ++ now)%string.
Definition writable (isdir : string -> bool) (p : spath) : bool := isdir (fst p) && negb (String.eqb (snd p) "").
(** The calls that put the stamp on figure [f]: those for a png with the information, unless the pdf could not be written. *)
Definition stamps_it (isdir : string -> bool) (f : nat) (c : call) : bool :=
  Nat.eqb (c_fig c) f && c_png c && c_info c && (negb (c_pdf c) || writable isdir (c_path c)).
Definition ordinary (f : nat) (p : spath) (now : string) : call := mkCall f p true true true now.

(* ---------------------------------------------------------------- names *)
Lemma sapp_assoc a b c : ((a ++ b) ++ c = a ++ (b ++ c))%string.
Proof. induction a; cbn; congruence. Qed.
Lemma last_dot_some s b a : last_dot s = Some (b, a) -> s = (b ++ "." ++ a)%string /\ dotless a.
Proof.
  revert b a. induction s as [|c r IH]; intros b a; [discriminate|].
  cbn. destruct (last_dot r) as [[b' a']|] eqn:E.
  - intros [= <- <-]. destruct (IH b' a' eq_refl) as [-> Hd]. split; [reflexivity|exact Hd].
  - destruct (Ascii.eqb c ".") eqn:Ec; [|discriminate]. intros [= <- <-].
    apply Ascii.eqb_eq in Ec. subst c. split; [reflexivity|].
    clear IH. revert E. induction r as [|d r IH]; intros E x y; [destruct x; discriminate|].
    cbn in E. destruct (last_dot r) as [[? ?]|] eqn:E2; [discriminate|].
    destruct (Ascii.eqb d ".") eqn:Ed; [discriminate|].
    destruct x as [|x0 x]; cbn.
    + intros [= -> _]. discriminate.
    + intros [= _ H]. exact (IH eq_refl x y H).
Qed.
Lemma last_dot_none s : last_dot s = None -> dotless s.
Proof.
  induction s as [|d r IH]; intros E x y; [destruct x; discriminate|].
  cbn in E. destruct (last_dot r) as [[? ?]|] eqn:E2; [discriminate|].
  destruct (Ascii.eqb d ".") eqn:Ed; [discriminate|].
  destruct x as [|x0 x]; cbn.
  - intros [= -> _]. discriminate.
  - intros [= _ H]. exact (IH eq_refl x y H).
Qed.
Lemma last_dot_is b a : dotless a -> last_dot (b ++ "." ++ a) = Some (b, a).
Proof.
  intros Hd. induction b as [|c r IH].
  - cbn. destruct (last_dot a) as [[b' a']|] eqn:E; [|reflexivity].
    apply last_dot_some in E. destruct E as [E _]. exfalso. exact (Hd b' a' E).
  - cbn in IH |- *. rewrite IH. reflexivity.
Qed.
Lemma eqb_false a b : a <> b -> String.eqb a b = false.
Proof. apply String.eqb_neq. Qed.
Lemma stem_suffix suf name b : stem_of name b -> with_suffix suf name = Ok (b ++ suf)%string.
Proof.
  unfold with_suffix. intros [b' e Hb He Hd | name' Hn Hx].
  - rewrite (eqb_false (b' ++ "." ++ e)); [|destruct b'; discriminate].
    rewrite last_dot_is by assumption. rewrite (eqb_false b'), (eqb_false e) by assumption. reflexivity.
  - rewrite (eqb_false name') by assumption. destruct (last_dot name') as [[x y]|] eqn:E; [|reflexivity].
    apply last_dot_some in E. destruct E as [E Hd].
    destruct (Hx x y E Hd) as [-> | ->]; rewrite ?String.eqb_refl, ?orb_true_r; reflexivity.
Qed.
Lemma stem_exists name : name <> "" -> exists b, stem_of name b.
Proof.
  intros Hn. destruct (last_dot name) as [[b a]|] eqn:E.
  - apply last_dot_some in E. destruct E as [-> Hd].
    destruct (String.string_dec b "") as [->|Hb].
    + eexists. apply bare; [exact Hn|]. intros b e He Hde.
      assert (E1 : last_dot ("" ++ "." ++ a) = Some ("", a)) by (apply last_dot_is; exact Hd).
      rewrite He, last_dot_is in E1 by assumption. left. congruence.
    + destruct (String.string_dec a "") as [->|Ha].
      * eexists. apply bare; [exact Hn|]. intros b' e He Hde.
        assert (E1 : last_dot (b ++ "." ++ "") = Some (b, "")) by (apply last_dot_is; exact Hd).
        rewrite He, last_dot_is in E1 by assumption. right. congruence.
      * eexists. apply extended; assumption.
  - exists name. apply bare; [exact Hn|]. intros b e -> Hd. rewrite last_dot_is in E by assumption. discriminate.
Qed.
Lemma stem_unique name b b' : stem_of name b -> stem_of name b' -> b = b'.
Proof.
  intros H H'. apply (stem_suffix "") in H, H'. rewrite H in H'.
  assert (Hn : forall x, (x ++ "" = x)%string) by (induction x; cbn; congruence).
  rewrite !Hn in H'. congruence.
Qed.
Lemma dotless_stem name : name <> "" -> dotless name -> stem_of name name.
Proof. intros Hn Hd. apply bare; [exact Hn|]. intros b e E _. exfalso. exact (Hd b e E). Qed.
Lemma with_suffix_empty suf : with_suffix suf "" = Err ValueError.
Proof. reflexivity. Qed.

(* ---------------------------------------------------------------- files *)
Lemma path_eqb_refl p : path_eqb p p = true.
Proof. unfold path_eqb. rewrite !String.eqb_refl. reflexivity. Qed.
Lemma path_eqb_eq p q : path_eqb p q = true <-> p = q.
Proof.
  destruct p, q; unfold path_eqb; cbn [fst snd]. rewrite andb_true_iff, !String.eqb_eq. split; [intros [-> ->]|intros [= -> ->]]; auto.
Qed.
Lemma shown_here d p x : shown ((p, x) :: d) p = Some x.
Proof. cbn. rewrite path_eqb_refl. reflexivity. Qed.
Lemma shown_other d p q x : p <> q -> shown ((p, x) :: d) q = shown d q.
Proof. intros H. cbn. destruct (path_eqb p q) eqn:E; [|reflexivity]. apply path_eqb_eq in E. contradiction. Qed.
Lemma sapp_inj_l a b c : (a ++ b = a ++ c)%string -> b = c.
Proof. induction a as [|x a IH]; cbn; [auto|]. intros [= H]. auto. Qed.
Lemma slen_app a b : String.length (a ++ b) = String.length a + String.length b.
Proof. induction a; cbn; congruence. Qed.
Lemma sapp_same_len a b c d : String.length c = String.length d -> (a ++ c = b ++ d)%string -> a = b /\ c = d.
Proof.
  intros Hl. revert b. induction a as [|x a IH]; intros [|y b] H.
  - auto.
  - exfalso. apply (f_equal String.length) in H. cbn in H. rewrite slen_app in H. lia.
  - exfalso. apply (f_equal String.length) in H. cbn in H. rewrite slen_app in H. lia.
  - cbn in H. injection H as -> H. destruct (IH b H) as [-> ->]. auto.
Qed.
Lemma pdf_png a b : (a ++ ".pdf")%string <> (b ++ ".png")%string.
Proof. intros H. apply sapp_same_len in H; [|reflexivity]. destruct H; discriminate. Qed.

Lemma savefig_ok isdir suf d name b f s : stem_of name b -> isdir d = true ->
  savefig isdir suf (d, name) f s = Ok (mkSession (s_figs s) (((d, b ++ suf)%string, s_figs s f) :: s_disk s)).
Proof. intros Hb Hd. unfold savefig. cbn [fst snd]. rewrite (stem_suffix suf _ _ Hb). cbn. rewrite Hd. reflexivity. Qed.
Lemma savefig_fails isdir suf p f s : writable isdir p = false -> exists e, savefig isdir suf p f s = Err e.
Proof.
  destruct p as [d name]. unfold writable, savefig. cbn [fst snd]. intros H.
  destruct (String.eqb name "") eqn:E.
  - apply String.eqb_eq in E. subst. cbn. eauto.
  - rewrite andb_true_r in H. rewrite H. destruct (with_suffix suf name); cbn; eauto.
Qed.
Lemma writable_stem isdir d name : writable isdir (d, name) = true -> isdir d = true /\ exists b, stem_of name b.
Proof.
  unfold writable. cbn [fst snd]. rewrite andb_true_iff, negb_true_iff, String.eqb_neq. intros [Hd Hn].
  split; [exact Hd|]. apply stem_exists. exact Hn.
Qed.

(* ---------------------------------------------------------------- C201 *)
(** One call: the pdf shows the figure as it was, the png the figure with the stamp; nothing else on disk changes, and the
    figure keeps the stamp. *)
Theorem C201_one_save isdir c s d name b : c_path c = (d, name) -> stem_of name b -> isdir d = true ->
  exists s', save isdir c s = (None, s')
  /\ (c_pdf c = true -> shown (s_disk s') (d, b ++ ".pdf")%string = Some (s_figs s (c_fig c)))
  /\ (c_png c = true -> shown (s_disk s') (d, b ++ ".png")%string
                        = Some (s_figs s (c_fig c) ++ if c_info c then [signed (c_now c)] else []))
  /\ (forall q, (c_pdf c = true -> q <> (d, b ++ ".pdf")%string) -> (c_png c = true -> q <> (d, b ++ ".png")%string) ->
        shown (s_disk s') q = shown (s_disk s) q)
  /\ (forall g, s_figs s' g = if Nat.eqb g (c_fig c) && c_png c && c_info c then s_figs s g ++ [signed (c_now c)] else s_figs s g).
Proof.
  intros Hp Hb Hd. unfold save. rewrite Hp.
  assert (Hne : forall x : string, (x, b ++ ".png")%string <> (x, b ++ ".pdf")%string).
  { intros x H. injection H as H. symmetry in H. exact (pdf_png _ _ H). }
  destruct (c_pdf c) eqn:Epdf.
  - rewrite (savefig_ok isdir ".pdf" d name b _ _ Hb Hd). cbv iota zeta. destruct (c_png c) eqn:Epng.
    + rewrite (savefig_ok isdir ".png" d name b _ _ Hb Hd).
      eexists; split; [reflexivity|]. destruct (c_info c) eqn:Ei; cbn [s_disk s_figs add_text].
      * rewrite Nat.eqb_refl. repeat apply conj.
        -- intros _. rewrite shown_other by apply Hne. apply shown_here.
        -- intros _. apply shown_here.
        -- intros q H1 H2. rewrite shown_other, shown_other by (intros <-; first [exact (H1 eq_refl eq_refl)|exact (H2 eq_refl eq_refl)]). reflexivity.
        -- intros g. rewrite !andb_true_r. reflexivity.
      * repeat apply conj.
        -- intros _. rewrite shown_other by apply Hne. apply shown_here.
        -- intros _. rewrite app_nil_r. apply shown_here.
        -- intros q H1 H2. rewrite shown_other, shown_other by (intros <-; first [exact (H1 eq_refl eq_refl)|exact (H2 eq_refl eq_refl)]). reflexivity.
        -- intros g. rewrite !andb_false_r. reflexivity.
    + eexists; split; [reflexivity|]. cbn [s_disk s_figs]. repeat apply conj.
      * intros _. apply shown_here.
      * discriminate.
      * intros q H1 _. rewrite shown_other by (intros <-; exact (H1 eq_refl eq_refl)). reflexivity.
      * intros g. rewrite andb_false_r. reflexivity.
  - cbv iota zeta. destruct (c_png c) eqn:Epng.
    + rewrite (savefig_ok isdir ".png" d name b _ _ Hb Hd).
      eexists; split; [reflexivity|]. destruct (c_info c) eqn:Ei; cbn [s_disk s_figs add_text].
      * rewrite Nat.eqb_refl. repeat apply conj.
        -- discriminate.
        -- intros _. apply shown_here.
        -- intros q _ H2. rewrite shown_other by (intros <-; exact (H2 eq_refl eq_refl)). reflexivity.
        -- intros g. rewrite !andb_true_r. reflexivity.
      * repeat apply conj.
        -- discriminate.
        -- intros _. rewrite app_nil_r. apply shown_here.
        -- intros q _ H2. rewrite shown_other by (intros <-; exact (H2 eq_refl eq_refl)). reflexivity.
        -- intros g. rewrite !andb_false_r. reflexivity.
    + eexists; split; [reflexivity|]. repeat apply conj; try discriminate; auto.
      intros g. rewrite andb_false_r. reflexivity.
Qed.

(** A call that cannot write raises and leaves the disk as it was; but one for the png alone has already stamped the figure. *)
Theorem C201_failed_save isdir c s : writable isdir (c_path c) = false -> c_pdf c || c_png c = true ->
  exists e s', save isdir c s = (Some e, s') /\ s_disk s' = s_disk s
  /\ forall g, s_figs s' g = if Nat.eqb g (c_fig c) && negb (c_pdf c) && c_info c then s_figs s g ++ [signed (c_now c)] else s_figs s g.
Proof.
  intros Hw Hc. unfold save. destruct (c_pdf c) eqn:Ep.
  - destruct (savefig_fails isdir ".pdf" (c_path c) (c_fig c) s Hw) as [e ->].
    exists e, s. split; [reflexivity|]. split; [reflexivity|]. intros g. rewrite andb_false_r. reflexivity.
  - cbn in Hc. rewrite Hc. cbv iota zeta.
    set (s2 := if c_info c then _ else _).
    destruct (savefig_fails isdir ".png" (c_path c) (c_fig c) s2 Hw) as [e ->].
    exists e, s2. split; [reflexivity|]. unfold s2.
    destruct (c_info c); cbn [add_text s_disk s_figs]; (split; [reflexivity|]); intros g; rewrite ?andb_true_r, ?andb_false_r; reflexivity.
Qed.

(* ---------------------------------------------------------------- C202 *)
Lemma save_figs isdir c s g : s_figs (snd (save isdir c s)) g
  = s_figs s g ++ if stamps_it isdir g c then [signed (c_now c)] else [].
Proof.
  unfold stamps_it.
  destruct (writable isdir (c_path c)) eqn:Hw.
  - destruct (c_path c) as [d name] eqn:Hp. destruct (writable_stem isdir d name Hw) as [Hd [b Hb]].
    destruct (C201_one_save isdir c s d name b Hp Hb Hd) as (s' & -> & _ & _ & _ & Hg). cbn [snd]. rewrite Hg.
    rewrite orb_true_r, andb_true_r, (Nat.eqb_sym (c_fig c) g).
    destruct (Nat.eqb g (c_fig c) && c_png c && c_info c); [reflexivity|rewrite app_nil_r; reflexivity].
  - destruct (c_pdf c || c_png c) eqn:E.
    + destruct (C201_failed_save isdir c s Hw E) as (e & s' & -> & _ & Hg). cbn [snd]. rewrite Hg.
      rewrite orb_false_r, (Nat.eqb_sym (c_fig c) g).
      destruct (c_pdf c), (c_png c), (c_info c), (Nat.eqb g (c_fig c)); cbn in *; rewrite ?app_nil_r; congruence.
    + unfold save. apply orb_false_iff in E. destruct E as [-> ->]. cbn. rewrite andb_false_r, app_nil_r. reflexivity.
Qed.
(** After any history of calls a figure shows what it showed at first, and a stamp for every stamping call made for it since. *)
Theorem C202_stamps_pile_up isdir cs s f :
  s_figs (saves isdir cs s) f = s_figs s f ++ map (fun c => signed (c_now c)) (filter (stamps_it isdir f) cs).
Proof.
  unfold saves. revert s. induction cs as [|c cs IH]; intros s; cbn [fold_left filter map].
  - rewrite app_nil_r. reflexivity.
  - rewrite IH, save_figs, <- app_assoc. destruct (stamps_it isdir f c); reflexivity.
Qed.
(** The pdf is meant to be without the stamp and the png with one: wrong for every figure that is saved twice. *)
Theorem C202_second_save_refuted isdir s f d n1 n2 b1 b2 t1 t2 : isdir d = true -> stem_of n1 b1 -> stem_of n2 b2 ->
  let s' := saves isdir [ordinary f (d, n1) t1; ordinary f (d, n2) t2] s in
  shown (s_disk s') (d, b2 ++ ".pdf")%string = Some (s_figs s f ++ [signed t1])
  /\ shown (s_disk s') (d, b2 ++ ".png")%string = Some (s_figs s f ++ [signed t1; signed t2]).
Proof.
  intros Hd H1 H2. unfold saves. cbn [fold_left].
  destruct (C201_one_save isdir (ordinary f (d, n1) t1) s d n1 b1 eq_refl H1 Hd) as (s1 & E1 & _ & _ & _ & Hf1).
  rewrite E1. cbn [snd].
  destruct (C201_one_save isdir (ordinary f (d, n2) t2) s1 d n2 b2 eq_refl H2 Hd) as (s2 & E2 & Hpdf & Hpng & _ & _).
  rewrite E2. cbn [snd]. rewrite (Hpdf eq_refl), (Hpng eq_refl). cbn [ordinary c_fig c_info c_now] in *.
  rewrite Hf1. cbn [ordinary c_fig c_png c_info]. rewrite Nat.eqb_refl. cbn [andb]. rewrite <- app_assoc. split; reflexivity.
Qed.
(** As long as the information is switched off for a figure, every file written from it shows the figure alone. *)
Theorem C202_without_information_partial isdir cs s c d name b :
  (forall k, In k cs -> c_fig k = c_fig c -> c_info k = false) -> c_info c = false ->
  c_path c = (d, name) -> stem_of name b -> isdir d = true ->
  let s' := snd (save isdir c (saves isdir cs s)) in
  (c_pdf c = true -> shown (s_disk s') (d, b ++ ".pdf")%string = Some (s_figs s (c_fig c)))
  /\ (c_png c = true -> shown (s_disk s') (d, b ++ ".png")%string = Some (s_figs s (c_fig c)))
  /\ s_figs s' (c_fig c) = s_figs s (c_fig c).
Proof.
  intros Hall Hi Hp Hb Hd.
  assert (E : s_figs (saves isdir cs s) (c_fig c) = s_figs s (c_fig c)).
  { rewrite C202_stamps_pile_up. replace (filter (stamps_it isdir (c_fig c)) cs) with (@nil call); [apply app_nil_r|].
    symmetry. clear - Hall. induction cs as [|k cs IH]; [reflexivity|]. cbn [filter].
    replace (stamps_it isdir (c_fig c) k) with false.
    - apply IH. intros k' Hk'. apply Hall. right. exact Hk'.
    - symmetry. unfold stamps_it. destruct (Nat.eqb (c_fig k) (c_fig c)) eqn:Ef; [|reflexivity].
      apply Nat.eqb_eq in Ef. rewrite (Hall k (or_introl eq_refl) Ef). cbn. rewrite andb_false_r. reflexivity. }
  destruct (C201_one_save isdir c (saves isdir cs s) d name b Hp Hb Hd) as (s' & -> & H1 & H2 & _ & H4). cbn [snd].
  rewrite Hi, E in *. rewrite app_nil_r in H2. repeat apply conj; auto.
  rewrite H4, andb_false_r. exact E.
Qed.

(* ---------------------------------------------------------------- C203 *)
Lemma save_elsewhere isdir c s d b suf : suf = ".pdf" \/ suf = ".png" ->
  (forall name, c_path c = (d, name) -> ~ stem_of name b) ->
  shown (s_disk (snd (save isdir c s))) (d, b ++ suf)%string = shown (s_disk s) (d, b ++ suf)%string.
Proof.
  intros Hsuf Hno. destruct (writable isdir (c_path c)) eqn:Hw.
  - destruct (c_path c) as [d' name] eqn:Hp. destruct (writable_stem isdir d' name Hw) as [Hd [b' Hb]].
    destruct (C201_one_save isdir c s d' name b' Hp Hb Hd) as (s' & -> & _ & _ & Hq & _). cbn [snd]. apply Hq.
    + intros _ E. injection E as Ed Eb. subst d'. destruct Hsuf as [-> | ->].
      * apply sapp_same_len in Eb; [|reflexivity]. destruct Eb as [-> _]. exact (Hno name eq_refl Hb).
      * symmetry in Eb. exact (pdf_png _ _ Eb).
    + intros _ E. injection E as Ed Eb. subst d'. destruct Hsuf as [-> | ->].
      * exact (pdf_png _ _ Eb).
      * apply sapp_same_len in Eb; [|reflexivity]. destruct Eb as [-> _]. exact (Hno name eq_refl Hb).
  - destruct (c_pdf c || c_png c) eqn:E.
    + destruct (C201_failed_save isdir c s Hw E) as (e & s' & -> & Hd & _). cbn [snd]. rewrite Hd. reflexivity.
    + unfold save. apply orb_false_iff in E. destruct E as [-> ->]. reflexivity.
Qed.
(** A saved figure stays on disk through any later calls for names with another stem (or another directory). *)
Theorem C203_kept isdir cs s d b suf : suf = ".pdf" \/ suf = ".png" ->
  (forall c name, In c cs -> c_path c = (d, name) -> ~ stem_of name b) ->
  shown (s_disk (saves isdir cs s)) (d, b ++ suf)%string = shown (s_disk s) (d, b ++ suf)%string.
Proof.
  intros Hsuf. unfold saves. revert s. induction cs as [|c cs IH]; intros s Hno; [reflexivity|]. cbn [fold_left].
  rewrite IH by (intros c' name Hc; apply Hno; right; exact Hc).
  apply save_elsewhere; [exact Hsuf|]. intros name. apply Hno. left. reflexivity.
Qed.
(** So for names without a dot the files are those of the last call for that very name. *)
Theorem C203_plain_names_partial isdir before c after s d name : isdir d = true -> name <> "" -> dotless name -> c_path c = (d, name) ->
  (forall k, In k after -> dotless (snd (c_path k)) /\ c_path k <> (d, name)) ->
  let s1 := saves isdir before s in
  let s' := saves isdir (before ++ c :: after) s in
  (c_pdf c = true -> shown (s_disk s') (d, name ++ ".pdf")%string = Some (s_figs s1 (c_fig c)))
  /\ (c_png c = true -> shown (s_disk s') (d, name ++ ".png")%string
                        = Some (s_figs s1 (c_fig c) ++ if c_info c then [signed (c_now c)] else [])).
Proof.
  intros Hd Hn Hdot Hp Hafter s1 s'.
  destruct (C201_one_save isdir c s1 d name name Hp (dotless_stem name Hn Hdot) Hd) as (s2 & E2 & Hpdf & Hpng & _).
  assert (Es' : s' = saves isdir after s2).
  { unfold s', saves. rewrite fold_left_app. cbn [fold_left]. change (fold_left _ before s) with s1. rewrite E2. reflexivity. }
  assert (Hno : forall k n, In k after -> c_path k = (d, n) -> ~ stem_of n name).
  { intros k n Hk Ek Hst. destruct (Hafter k Hk) as [Hkd Hkp]. rewrite Ek in Hkd, Hkp. cbn in Hkd.
    destruct (String.string_dec n "") as [->|Hne].
    - inversion Hst; subst; [destruct name; discriminate|congruence].
    - apply Hkp. f_equal. exact (stem_unique n n name (dotless_stem n Hne Hkd) Hst). }
  rewrite Es'. split; intros H.
  - rewrite (C203_kept isdir after s2 d name ".pdf" (or_introl eq_refl) Hno). exact (Hpdf H).
  - rewrite (C203_kept isdir after s2 d name ".png" (or_intror eq_refl) Hno). exact (Hpng H).
Qed.
(** Two names that differ only after their last dot ("v_0.5" and "v_0.7") are the same two files: the second figure replaces the
    first, and nothing else on disk has changed since before the first call. *)
Theorem C203_dotted_names_refuted isdir s f g d b e1 e2 t1 t2 : isdir d = true -> b <> "" ->
  e1 <> "" -> dotless e1 -> e2 <> "" -> dotless e2 -> f <> g ->
  let s' := saves isdir [ordinary f (d, b ++ "." ++ e1)%string t1; ordinary g (d, b ++ "." ++ e2)%string t2] s in
  shown (s_disk s') (d, b ++ ".pdf")%string = Some (s_figs s g)
  /\ shown (s_disk s') (d, b ++ ".png")%string = Some (s_figs s g ++ [signed t2])
  /\ forall q, q <> (d, b ++ ".pdf")%string -> q <> (d, b ++ ".png")%string -> shown (s_disk s') q = shown (s_disk s) q.
Proof.
  intros Hd Hb H1 H1' H2 H2' Hfg. unfold saves. cbn [fold_left].
  destruct (C201_one_save isdir (ordinary f (d, b ++ "." ++ e1)%string t1) s d _ b eq_refl (extended b e1 Hb H1 H1') Hd) as (s1 & E1 & _ & _ & Hq1 & Hf1).
  rewrite E1. cbn [snd].
  destruct (C201_one_save isdir (ordinary g (d, b ++ "." ++ e2)%string t2) s1 d _ b eq_refl (extended b e2 Hb H2 H2') Hd) as (s2 & E2 & Hpdf & Hpng & Hq2 & _).
  rewrite E2. cbn [snd]. rewrite (Hpdf eq_refl), (Hpng eq_refl). cbn [ordinary c_fig c_info c_now] in *.
  rewrite Hf1. cbn [ordinary c_fig]. rewrite (proj2 (Nat.eqb_neq g f)) by congruence. cbn [andb].
  split; [reflexivity|]. split; [reflexivity|]. intros q N1 N2. rewrite Hq2, Hq1; auto.
Qed.

(* ---------------------------------------------------------------- instances *)
Lemma dotless_digit c : c <> "."%char -> dotless (String c "").
Proof. intros Hc [|x [|y a]] b; cbn; congruence. Qed.
Example C201_ex : stem_of "v_0.5" "v_0" /\ stem_of ".fig" ".fig"
  /\ fst (save (fun _ => true) (ordinary 0 ("d", "v_0.5") "20240101T000000") (mkSession (fun _ => ["title"]) [])) = None
  /\ fst (save (fun _ => false) (ordinary 0 ("d", "v_0.5") "20240101T000000") (mkSession (fun _ => ["title"]) [])) = Some FileNotFoundError
  /\ writable (fun _ => false) ("d", "v") = false.
Proof.
  repeat apply conj; try reflexivity.
  - apply (extended "v_0" "5"); try discriminate. apply dotless_digit. discriminate.
  - apply bare; [discriminate|]. intros b e E He. destruct b as [|x b]; [left; reflexivity|]. exfalso.
    cbn in E. injection E as Ex E. clear Ex.
    assert (D : dotless "fig").
    { intros [|a1 [|a2 [|a3 [|a4 a]]]] y; cbn; congruence. }
    exact (D b e E).
Qed.
Example C202_ex : shown (s_disk (saves (fun _ => true) [ordinary 0 ("d", "a") "t1"; ordinary 0 ("d", "b") "t2"]
  (mkSession (fun _ => ["title"]) []))) ("d", "b.png") = Some ["title"; "B. L. Alterman t1"; "B. L. Alterman t2"].
Proof. reflexivity. Qed.
Example C203_ex : shown (s_disk (saves (fun _ => true) [ordinary 0 ("d", "v_0.5") "t1"; ordinary 1 ("d", "v_0.7") "t2"]
  (mkSession (fun f => if Nat.eqb f 0 then ["half"] else ["seven tenths"]) []))) ("d", "v_0.pdf") = Some ["seven tenths"].
Proof. reflexivity. Qed.
