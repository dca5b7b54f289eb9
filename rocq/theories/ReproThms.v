(** C204-C206: which code an analysis is said to have been made with. *)
From Coq Require Import List String Ascii Bool Arith Lia.
From Verif Require Import Py PyStr Repro.
Import ListNotations.
Open Scope string_scope.
Open Scope list_scope.

(* ---------------------------------------------------------------- specification *)
(** The same contents under every path. *)
Definition alike (a b : files) : Prop := forall p, content a p = content b p.
(** Right after a commit or a checkout: nothing is staged, every committed file is on disk as it was committed. *)
Definition checked_out (r : repo) : Prop :=
  alike (r_index r) (r_commit r) /\ forall p x, content (r_commit r) p = Some x -> content (r_work r) p = Some x.
(** A committed file is missing or different on disk. *)
Definition modified (r : repo) : Prop := exists p x, content (r_commit r) p = Some x /\ content (r_work r) p <> Some x.
(** git is there and place [p] is a directory in the repository [r], whose commit is [sha]. *)
Definition readable (w : world) (p : place) (r : repo) (sha : string) : Prop :=
  w_git w = true /\ w_node w p = Directory /\ r_head r = Some sha
  /\ exists inner outer, p = inner ++ outer /\ w_repo w outer = Some r
     /\ forall a b, inner = a ++ b -> b <> [] -> w_repo w (b ++ outer) = None.
Definition stages (a : action) : bool := match a with Stage _ => true | _ => false end.
Definition commits (a : action) : bool := match a with Commit _ => true | _ => false end.

(* ---------------------------------------------------------------- files *)
Lemma content_remove f p q : content (remove p f) q = if String.eqb p q then None else content f q.
Proof.
  unfold remove. induction f as [|[k x] f IH]; cbn.
  - destruct (String.eqb p q); reflexivity.
  - destruct (String.eqb k p) eqn:E; cbn.
    + apply String.eqb_eq in E. subst k. rewrite IH. destruct (String.eqb p q); reflexivity.
    + destruct (String.eqb k q) eqn:Ek; [|exact IH].
      apply String.eqb_eq in Ek. subst k. rewrite String.eqb_sym, E. reflexivity.
Qed.
Lemma content_put f p x q : content (put p x f) q = if String.eqb p q then Some x else content f q.
Proof. unfold put. cbn [content]. rewrite content_remove. destruct (String.eqb p q); reflexivity. Qed.
Lemma content_in f p x : content f p = Some x -> In p (map fst f).
Proof.
  induction f as [|[k y] f IH]; cbn; [discriminate|]. destruct (String.eqb k p) eqn:E; [apply String.eqb_eq in E; auto|auto].
Qed.
Lemma in_content f p : In p (map fst f) -> exists x, content f p = Some x.
Proof.
  induction f as [|[k y] f IH]; cbn; [intros []|]. destruct (String.eqb k p) eqn:E; [eauto|].
  intros [H|H]; [subst; rewrite String.eqb_refl in E; discriminate|auto].
Qed.
Lemma same_eq a b : same a b = true <-> a = b.
Proof.
  destruct a, b; cbn; split; intros H; try congruence.
  - apply String.eqb_eq in H. congruence.
  - injection H as ->. apply String.eqb_refl.
Qed.
Lemma forallb_false {A} (f : A -> bool) l : forallb f l = false -> exists e, In e l /\ f e = false.
Proof.
  induction l as [|x l IH]; cbn; [discriminate|]. destruct (f x) eqn:E; cbn; [|eauto]. intros H. destruct (IH H) as [e [? ?]]. eauto.
Qed.
Lemma quiet_iff r : diff_quiet r = true <-> forall p x, content (r_index r) p = Some x -> content (r_work r) p = Some x.
Proof.
  unfold diff_quiet. rewrite forallb_forall. split.
  - intros H p x Hp. pose proof (content_in _ _ _ Hp) as Hi. apply in_map_iff in Hi. destruct Hi as [e [<- He]].
    specialize (H e He). apply same_eq in H. congruence.
  - intros H e He. apply same_eq. destruct (in_content (r_index r) (fst e)) as [x Hx]; [apply in_map; exact He|].
    rewrite Hx. auto.
Qed.
Lemma enclosing_is w inner outer r : w_repo w outer = Some r ->
  (forall a b, inner = a ++ b -> b <> [] -> w_repo w (b ++ outer) = None) -> enclosing w (inner ++ outer) = Some r.
Proof.
  intros Ho. induction inner as [|c inner IH]; intros Hn.
  - cbn. destruct outer; cbn; rewrite Ho; reflexivity.
  - cbn. pose proof (Hn [] (c :: inner) eq_refl ltac:(discriminate)) as Hc. cbn in Hc. rewrite Hc.
    apply IH. intros a b -> Hb. apply (Hn (c :: a) b eq_refl Hb).
Qed.
Lemma enclosing_none w p : enclosing w p = None <-> forall inner outer, p = inner ++ outer -> w_repo w outer = None.
Proof.
  induction p as [|c p IH]; cbn.
  - split.
    + intros H inner outer E. symmetry in E. apply app_eq_nil in E. destruct E as [-> ->]. destruct (w_repo w []); congruence.
    + intros H. rewrite (H [] [] eq_refl). reflexivity.
  - split.
    + intros H inner outer E. destruct (w_repo w (c :: p)) eqn:Ec; [discriminate|].
      destruct inner as [|c' inner]; cbn in E; [subst; exact Ec|]. injection E as <- E.
      exact (proj1 IH H inner outer E).
    + intros H. rewrite (H [] (c :: p) eq_refl). apply IH. intros inner outer E. apply (H (c :: inner) outer). cbn. congruence.
Qed.
Lemma readable_info w p r sha : readable w p r sha ->
  get_git_info w p = Ok (mkInfo sha (substring 0 7 sha) (Some (negb (diff_quiet r))) (match r_branch r with Some b => b | None => "HEAD" end)).
Proof.
  intros (Hg & Hn & Hh & inner & outer & -> & Ho & Hi). unfold get_git_info. rewrite Hn, Hg, (enclosing_is w inner outer r Ho Hi), Hh. reflexivity.
Qed.

(* ---------------------------------------------------------------- C204 *)
(** "dirty" compares what is on disk with what is staged: it is False exactly if every staged path is on disk as staged. *)
Theorem C204_dirty w p r sha : readable w p r sha ->
  exists g, get_git_info w p = Ok g /\ g_sha g = sha
  /\ (g_dirty g = Some false <-> forall q x, content (r_index r) q = Some x -> content (r_work r) q = Some x)
  /\ (g_dirty g = Some true <-> exists q x, content (r_index r) q = Some x /\ content (r_work r) q <> Some x).
Proof.
  intros H. rewrite (readable_info w p r sha H). eexists. split; [reflexivity|]. cbn [g_sha g_dirty]. split; [reflexivity|].
  destruct (diff_quiet r) eqn:E; cbn.
  - pose proof (proj1 (quiet_iff r) E) as Q. split; split; intros X; auto; try discriminate.
    destruct X as (q & x & H1 & H2). exfalso. exact (H2 (Q q x H1)).
  - split; split; intros X; try discriminate; auto.
    + apply quiet_iff in X. congruence.
    + unfold diff_quiet in E.
      assert (Hex : exists e, In e (r_index r) /\ same (content (r_work r) (fst e)) (content (r_index r) (fst e)) = false).
      { apply forallb_false. exact E. }
      destruct Hex as (e & He & Hs). destruct (in_content (r_index r) (fst e)) as [x Hx]; [apply in_map; exact He|].
      exists (fst e), x. split; [exact Hx|]. intros Hw. rewrite Hw, Hx in Hs. cbn in Hs. rewrite String.eqb_refl in Hs. discriminate.
Qed.
(** A clean report should mean that the files are those of the commit. Not so: a change that has been staged is not reported. *)
Theorem C204_staged_changes_refuted w p r sha q x : checked_out r -> content (r_commit r) q <> Some x ->
  let r' := acts [Edit q x; Stage q] r in
  readable w p r' sha ->
  exists g, get_git_info w p = Ok g /\ g_sha g = sha /\ g_dirty g = Some false
  /\ r_commit r' = r_commit r /\ content (r_work r') q <> content (r_commit r') q.
Proof.
  intros [Hi Hw] Hq r' Hr. destruct (C204_dirty w p r' sha Hr) as (g & Eg & Es & Hd & _). exists g.
  assert (Hwork : r_work r' = put q x (r_work r)) by reflexivity.
  assert (Hidx : r_index r' = put q x (r_index r)).
  { unfold r', acts. cbn [fold_left act r_work r_index]. rewrite content_put, String.eqb_refl. reflexivity. }
  split; [exact Eg|]. split; [exact Es|]. split; [|split; [reflexivity|]].
  - apply Hd. rewrite Hidx, Hwork. intros k y. rewrite !content_put. destruct (String.eqb q k); [auto|]. intros Hk. apply Hw. rewrite <- Hi. exact Hk.
  - rewrite Hwork, content_put, String.eqb_refl. change (r_commit r') with (r_commit r). congruence.
Qed.
(** Nor is a new file, such as a module that the analysis imports. *)
Theorem C204_new_files_refuted w p r sha q x : checked_out r -> content (r_commit r) q = None ->
  let r' := acts [Edit q x] r in
  readable w p r' sha ->
  exists g, get_git_info w p = Ok g /\ g_sha g = sha /\ g_dirty g = Some false /\ content (r_work r') q = Some x.
Proof.
  intros [Hi Hw] Hq r' Hr. destruct (C204_dirty w p r' sha Hr) as (g & Eg & Es & Hd & _). exists g.
  split; [exact Eg|]. split; [exact Es|]. split.
  - apply Hd. unfold r'. cbn [acts fold_left act r_index r_work]. intros k y Hk. rewrite content_put.
    destruct (String.eqb q k) eqn:E; [apply String.eqb_eq in E; subst; rewrite Hi in Hk; congruence|]. apply Hw. rewrite <- Hi. exact Hk.
  - unfold r'. cbn [acts fold_left act r_work]. rewrite content_put, String.eqb_refl. reflexivity.
Qed.
Lemma unstaged_alike l r : alike (r_index r) (r_commit r) -> existsb stages l = false -> existsb commits l = false ->
  alike (r_index (acts l r)) (r_commit (acts l r)) /\ r_head (acts l r) = r_head r.
Proof.
  revert r. induction l as [|a l IH]; intros r Hi Hs Hc; [split; [exact Hi|reflexivity]|].
  cbn in Hs, Hc. apply orb_false_iff in Hs, Hc. destruct Hs as [Ha Hs], Hc as [Hca Hc].
  unfold acts. cbn [fold_left]. destruct (IH (act r a)) as [H1 H2]; auto.
  - destruct a; try discriminate; cbn [act r_index r_commit]; auto.
    intros q. destruct (content (r_commit r) p) eqn:E; rewrite ?content_put, ?content_remove.
    + destruct (String.eqb p q) eqn:Eq; [apply String.eqb_eq in Eq; subst; congruence|apply Hi].
    + destruct (String.eqb p q) eqn:Eq; [apply String.eqb_eq in Eq; subst; congruence|apply Hi].
  - split; [exact H1|]. unfold acts in H2. rewrite H2. destruct a; try discriminate; reflexivity.
Qed.
(** If nothing has been staged since the last commit, whatever happened before and whatever was edited, deleted or unstaged since:
    the commit is reported, and "dirty" exactly if one of its files is missing or different on disk. *)
Theorem C204_nothing_staged_partial w p before sha since r :
  existsb stages since = false -> existsb commits since = false ->
  let r' := acts (before ++ Commit sha :: since) r in
  (exists s, readable w p r' s) ->
  exists g, get_git_info w p = Ok g /\ g_sha g = sha /\ (g_dirty g = Some true <-> modified r') /\ (g_dirty g = Some false <-> ~ modified r').
Proof.
  intros Hs Hc r' [s Hr].
  assert (E : r' = acts since (act (acts before r) (Commit sha))) by (unfold r', acts; rewrite fold_left_app; reflexivity).
  destruct (unstaged_alike since (act (acts before r) (Commit sha))) as [Ha Hh]; [intros q; reflexivity|exact Hs|exact Hc|].
  rewrite <- E in Ha, Hh. cbn [act r_head] in Hh.
  destruct (C204_dirty w p r' s Hr) as (g & Eg & Esh & Hf & Ht). exists g. split; [exact Eg|].
  split; [destruct Hr as (_ & _ & Hr & _); congruence|].
  assert (M : modified r' <-> exists q x, content (r_index r') q = Some x /\ content (r_work r') q <> Some x).
  { unfold modified. split; intros (q & x & H1 & H2); exists q, x; [rewrite Ha|rewrite <- Ha]; auto. }
  split; [rewrite M; exact Ht|]. rewrite M. split.
  - intros D (q & x & H1 & H2). exact (H2 (proj1 Hf D q x H1)).
  - intros N. apply Hf. intros q x Hq. destruct (content (r_work r') q) as [y|] eqn:Ew.
    + destruct (String.string_dec x y) as [->|Ne]; [reflexivity|]. exfalso. apply N. exists q, x. split; [exact Hq|congruence].
    + exfalso. apply N. exists q, x. split; [exact Hq|congruence].
Qed.

(* ---------------------------------------------------------------- C205 *)
(** The commit reported is that of the innermost repository around the place; it is "unknown" (and then "dirty" is None) exactly if
    there is no git, no such place, no repository around it or no commit in that one; a place that is a file is an exception. *)
Theorem C205_which_commit w p :
  (w_node w p = PlainFile -> get_git_info w p = Err NotADirectoryError)
  /\ (w_node w p <> PlainFile -> exists g, get_git_info w p = Ok g
      /\ (forall r sha, readable w p r sha -> g_sha g = sha /\ g_short g = substring 0 7 sha /\ g_dirty g <> None)
      /\ ((forall r sha, ~ readable w p r sha) -> g_sha g = "unknown" /\ g_short g = "unknown" /\ g_branch g = "unknown" /\ g_dirty g = None)).
Proof.
  split; [intros H; unfold get_git_info; rewrite H; reflexivity|]. intros Hn.
  assert (Hok : exists g, get_git_info w p = Ok g).
  { unfold get_git_info. destruct (w_node w p); [eauto|congruence|]. destruct (w_git w); [|eauto]. destruct (enclosing w p) as [r|]; [|eauto].
    destruct (r_head r); eauto. }
  destruct Hok as [g Hg]. exists g. split; [exact Hg|]. split.
  - intros r sha Hr. rewrite (readable_info w p r sha Hr) in Hg.
    assert (E : g = mkInfo sha (substring 0 7 sha) (Some (negb (diff_quiet r))) (match r_branch r with Some b => b | None => "HEAD" end)) by congruence.
    subst g. cbn. repeat split. discriminate.
  - intros Hno.
    assert (E : g = unknown); [|subst; cbn; auto].
    unfold get_git_info in Hg. destruct (w_node w p) eqn:En; [congruence|congruence|]. destruct (w_git w) eqn:Ew; [|congruence].
    destruct (enclosing w p) as [r|] eqn:Ee; [|congruence]. destruct (r_head r) as [sha|] eqn:Eh; [|congruence].
    exfalso. apply (Hno r sha). split; [exact Ew|]. split; [exact En|]. split; [exact Eh|].
    clear - Ee. induction p as [|c p IH]; cbn in Ee.
    + destruct (w_repo w []) eqn:E0; [|discriminate]. exists [], []. split; [reflexivity|]. split; [congruence|].
      intros a b E Hb. symmetry in E. apply app_eq_nil in E. destruct E as [_ ->]. congruence.
    + destruct (w_repo w (c :: p)) eqn:E0.
      * exists [], (c :: p). split; [reflexivity|]. split; [congruence|].
        intros a b E Hb. symmetry in E. apply app_eq_nil in E. destruct E as [_ ->]. congruence.
      * destruct (IH Ee) as (inner & outer & -> & Ho & Hi). exists (c :: inner), outer. split; [reflexivity|]. split; [exact Ho|].
        intros a b E Hb. destruct a as [|c' a]; cbn in E; [subst b; exact E0|]. injection E as _ E. exact (Hi a b E Hb).
Qed.
(** So for a package installed (without a repository of its own) somewhere inside another project, the commit reported is the
    project's and says nothing about the package. *)
Theorem C205_installed_package_refuted w package project r sha : w_git w = true -> w_node w (package ++ project) = Directory ->
  w_repo w project = Some r -> r_head r = Some sha -> (forall a b, package = a ++ b -> b <> [] -> w_repo w (b ++ project) = None) ->
  exists g, get_git_info w (package ++ project) = Ok g /\ g_sha g = sha.
Proof.
  intros Hg Hn Hr Hh Hi. destruct (C205_which_commit w (package ++ project)) as [_ H]. destruct H as (g & E & H1 & _); [congruence|].
  exists g. split; [exact E|]. apply (H1 r sha). split; [exact Hg|]. split; [exact Hn|]. split; [exact Hh|]. exists package, project. auto.
Qed.

(* ---------------------------------------------------------------- C206 *)
Lemma first_seven a b : String.length a = 7 -> substring 0 7 (a ++ b) = a.
Proof.
  intros H. do 7 (destruct a as [|? a]; [discriminate H|]). destruct a; [|discriminate H]. cbn. destruct b; reflexivity.
Qed.
(** The sentence names the first seven characters of the commit and local modifications exactly if a staged path differs on disk. *)
Theorem C206_citation w p r seven rest version python : String.length seven = 7 -> readable w p r (seven ++ rest)%string ->
  exists note, get_citation_string w p version python
    = Ok ("Analysis performed with solarwindpy " ++ version ++ " (commit " ++ seven ++ note ++ ") using Python " ++ python ++ ".")%string
  /\ ((note = " (with local modifications)" /\ exists q x, content (r_index r) q = Some x /\ content (r_work r) q <> Some x)
      \/ (note = "" /\ forall q x, content (r_index r) q = Some x -> content (r_work r) q = Some x)).
Proof.
  intros H7 Hr. destruct (C204_dirty w p r _ Hr) as (g & Eg & _ & Hf & Ht).
  assert (Es : g_short g = seven).
  { rewrite (readable_info _ _ _ _ Hr) in Eg. assert (E : g_short g = substring 0 7 (seven ++ rest)) by (injection Eg as <-; reflexivity).
    rewrite E. apply first_seven. exact H7. }
  unfold get_citation_string. rewrite Eg. cbn [bind]. rewrite Es.
  assert (Hd : g_dirty g <> None).
  { destruct (C205_which_commit w p) as [_ H]. destruct Hr as (Hr1 & Hr2 & Hr3 & Hr4). destruct H as (g' & E' & H' & _); [congruence|].
    assert (g' = g) by congruence. subst g'. apply (H' r (seven ++ rest)%string). repeat split; assumption. }
  destruct (g_dirty g) as [[|]|]; [| |congruence]; eexists; (split; [reflexivity|]).
  - left. split; [reflexivity|]. apply Ht. reflexivity.
  - right. split; [reflexivity|]. apply Hf. reflexivity.
Qed.
(** Where no commit can be read the sentence says "unknown" and never mentions modifications. *)
Theorem C206_unknown w p version python : w_node w p <> PlainFile -> (forall r sha, ~ readable w p r sha) ->
  get_citation_string w p version python
  = Ok ("Analysis performed with solarwindpy " ++ version ++ " (commit unknown) using Python " ++ python ++ ".")%string.
Proof.
  intros Hn Hno. destruct (C205_which_commit w p) as [_ H]. destruct (H Hn) as (g & Eg & _ & Hu). destruct (Hu Hno) as (_ & Hs & _ & Hd).
  unfold get_citation_string. rewrite Eg. cbn [bind]. rewrite Hs, Hd. reflexivity.
Qed.
(** The sentence should tell two commits apart: it does not if their names begin alike. *)
Theorem C206_same_beginning_refuted w1 w2 p1 p2 r1 r2 seven a b version python : String.length seven = 7 ->
  readable w1 p1 r1 (seven ++ a)%string -> readable w2 p2 r2 (seven ++ b)%string -> (modified r1 <-> modified r2) ->
  alike (r_index r1) (r_commit r1) -> alike (r_index r2) (r_commit r2) ->
  get_citation_string w1 p1 version python = get_citation_string w2 p2 version python.
Proof.
  intros H7 R1 R2 Hm A1 A2.
  destruct (C206_citation _ _ _ _ _ version python H7 R1) as (n1 & -> & D1).
  destruct (C206_citation _ _ _ _ _ version python H7 R2) as (n2 & -> & D2).
  assert (E : n1 = n2); [|congruence].
  destruct D1 as [[-> (q & x & H1 & H2)]|[-> H1]], D2 as [[-> (q' & x' & H1' & H2')]|[-> H1']]; try reflexivity; exfalso.
  - destruct (proj1 Hm) as (k & y & K1 & K2); [exists q, x; rewrite <- A1; auto|]. rewrite <- A2 in K1. exact (K2 (H1' k y K1)).
  - destruct (proj2 Hm) as (k & y & K1 & K2); [exists q', x'; rewrite <- A2; auto|]. rewrite <- A1 in K1. exact (K2 (H1 k y K1)).
Qed.

(* ---------------------------------------------------------------- instances *)
Definition ex_repo : repo := mkRepo (Some "0123456789abcdef") (Some "main") [("a.py", "1"); ("b.py", "2")] [("a.py", "1"); ("b.py", "2")]
  [("a.py", "1"); ("b.py", "2"); ("notes", "x")].
Definition ex_world (r : repo) : world := mkWorld true (fun _ => Directory) (fun p => match p with ["project"] => Some r | _ => None end).
Lemma ex_readable r sha : r_head r = Some sha -> readable (ex_world r) ["site-packages"; "venv"; "project"] r sha.
Proof.
  intros H. repeat split; [exact H|]. exists ["site-packages"; "venv"], ["project"]. split; [reflexivity|]. split; [reflexivity|].
  intros a b E Hb. destruct a as [|x1 [|x2 a]].
  - cbn in E. subst b. reflexivity.
  - cbn in E. assert (b = ["venv"]) by congruence. subst b. reflexivity.
  - cbn in E. assert (Hab : a ++ b = []) by congruence. apply app_eq_nil in Hab. destruct Hab as [_ Hab]. contradiction.
Qed.
Example C204_ex : checked_out ex_repo /\ readable (ex_world (acts [Edit "a.py" "changed"; Stage "a.py"] ex_repo)) ["site-packages"; "venv"; "project"]
    (acts [Edit "a.py" "changed"; Stage "a.py"] ex_repo) "0123456789abcdef"
  /\ existsb stages [Edit "a.py" "changed"; Unstage "b.py"] = false.
Proof.
  split; [split; [intros q; reflexivity|]|].
  - intros q x. unfold ex_repo. cbn [r_commit r_work content]. destruct (String.eqb "a.py" q); [auto|]. destruct (String.eqb "b.py" q); [auto|discriminate].
  - split; [|reflexivity]. apply ex_readable. reflexivity.
Qed.
Example C205_ex : exists g, get_git_info (ex_world ex_repo) ["site-packages"; "venv"; "project"] = Ok g /\ g_sha g = "0123456789abcdef".
Proof. eexists. split; reflexivity. Qed.
Example C206_ex : get_citation_string (ex_world (acts [Delete "b.py"] ex_repo)) ["project"] "1.0" "3.11"
  = Ok "Analysis performed with solarwindpy 1.0 (commit 0123456 (with local modifications)) using Python 3.11."
  /\ readable (ex_world ex_repo) ["site-packages"; "venv"; "project"] ex_repo ("0123456" ++ "789abcdef").
Proof. split; [reflexivity|apply ex_readable; reflexivity]. Qed.
