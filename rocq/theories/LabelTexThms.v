(** C184: the TeX of labels is well formed, whatever the component and species. C120 is sharpened along. *)
From Coq Require Import List String Ascii Bool Arith NArith Lia.
From Verif Require Import Py PyStr LabelTables Labels LabelsThms.
Import ListNotations.
Open Scope string_scope.
Local Notation "a +++ b" := (String.append a b) (at level 60, right associativity).

(* ------------------------------------------------------------ specification *)
(** A name that is shown as it is: not empty, none of the characters of the TeX frame, no backslash at its end. *)
Definition frame_char (c : ascii) : bool := has_char c "{}();,_ ".
Fixpoint plain (h : string) : Prop :=
  match h with
  | "" => False
  | String c "" => frame_char c = false /\ c <> "\"%char
  | String c r => frame_char c = false /\ plain r
  end.
(** braces and parentheses balance: nesting depths never negative and zero at the end *)
Fixpoint nesting (o c : ascii) (s : string) (depth : nat) : option nat :=
  match s with
  | "" => Some depth
  | String x r => if Ascii.eqb x o then nesting o c r (S depth)
                  else if Ascii.eqb x c then match depth with O => None | S d => nesting o c r d end
                  else nesting o c r depth
  end.
Definition balanced (s : string) : Prop := nesting "{" "}" s 0 = Some 0 /\ nesting "(" ")" s 0 = Some 0.
Definition no_empty_piece (s : string) : Prop :=
  forall p, In p ["{}"; ",}"; "{,"; ";}"; "_{}"] -> contains p s = false.

(* ------------------------------------------------------------ strings with holes *)
Inductive tok := L (c : ascii) | H (i : nat).
Fixpoint render (env : nat -> string) (ts : list tok) : string :=
  match ts with [] => "" | L c :: r => String c (render env r) | H i :: r => env i +++ render env r end.
Fixpoint lits (s : string) : list tok := match s with "" => [] | String c r => L c :: lits r end.
Lemma render_app env a b : render env (app a b) = render env a +++ render env b.
Proof. induction a as [|[c|i] a IH]; cbn; [reflexivity|rewrite IH; reflexivity|rewrite IH, sapp_assoc; reflexivity]. Qed.
Lemma render_lits env s : render env (lits s) = s.
Proof. induction s as [|c s IH]; cbn; [|rewrite IH]; reflexivity. Qed.
Definition env_ok (env : nat -> string) (ts : list tok) : Prop := forall i, In (H i) ts -> plain (env i).

Fixpoint prefix_tok (p : string) (ts : list tok) : bool :=
  match p with
  | "" => true
  | String c r => match ts with L d :: t => if Ascii.eqb c d then prefix_tok r t else false | _ => false end
  end.
Fixpoint frame_only (p : string) : bool := match p with "" => true | String c r => frame_char c && frame_only r end.
(** a backslash only at the start, then at least one more character, of the frame *)
Definition pattern (p : string) : bool :=
  match p with String c (String d r) => (frame_char c || Ascii.eqb c "\") && frame_only (String d r) | _ => false end.
Lemma prefix_cons c p d s : String.prefix (String c p) (String d s) = if Ascii.eqb c d then String.prefix p s else false.
Proof. cbn [String.prefix]. destruct (ascii_dec c d) as [->|N]; [rewrite Ascii.eqb_refl|apply Ascii.eqb_neq in N; rewrite N]; reflexivity. Qed.
Lemma prefix_nil s : String.prefix "" s = true. Proof. destruct s; reflexivity. Qed.
Lemma frame_neq c d : frame_char c = true -> frame_char d = false -> Ascii.eqb c d = false.
Proof. intros A B. apply Ascii.eqb_neq. intros ->. congruence. Qed.
Lemma plain_head h : plain h -> exists c r, h = String c r /\ frame_char c = false.
Proof. destruct h as [|c [|d r]]; cbn; [tauto| |]; intros [A _]; eexists _, _; split; try reflexivity; exact A. Qed.
Lemma prefix_frame env ts : env_ok env ts -> forall p, frame_only p = true -> String.prefix p (render env ts) = prefix_tok p ts.
Proof.
  induction ts as [|[c|i] ts IH]; intros OK p F; (destruct p as [|d p]; [apply prefix_nil|]); cbn [frame_only] in F; apply andb_true_iff in F; destruct F as [F1 F2].
  - reflexivity.
  - cbn [render]. rewrite prefix_cons. cbn [prefix_tok]. destruct (Ascii.eqb d c); [|reflexivity]. apply IH; [|exact F2]. intros j J. apply OK. right. exact J.
  - cbn [render prefix_tok]. destruct (plain_head (env i) (OK i (or_introl eq_refl))) as (c & r & -> & C). cbn [String.append]. rewrite prefix_cons, (frame_neq d c F1 C). reflexivity.
Qed.
Lemma prefix_pattern env ts p : env_ok env ts -> pattern p = true -> String.prefix p (render env ts) = prefix_tok p ts.
Proof.
  intros OK P. destruct p as [|c [|d p]]; try discriminate P. cbn [pattern] in P. apply andb_true_iff in P. destruct P as [P1 P2].
  destruct ts as [|[x|i] ts]; [reflexivity| |].
  - cbn [render]. rewrite prefix_cons. change (prefix_tok (String c (String d p)) (L x :: ts)) with (if Ascii.eqb c x then prefix_tok (String d p) ts else false).
    destruct (Ascii.eqb c x); [|reflexivity]. apply prefix_frame; [|exact P2]. intros j J. apply OK. right. exact J.
  - cbn [render prefix_tok]. pose proof (OK i (or_introl eq_refl)) as PL. destruct (env i) as [|x [|y r]]; [destruct PL| |].
    + cbn [plain] in PL. destruct PL as [A B]. cbn [String.append]. rewrite prefix_cons. apply orb_true_iff in P1. destruct P1 as [P1|P1]; [rewrite (frame_neq _ _ P1 A); reflexivity|].
      apply Ascii.eqb_eq in P1. subst c. destruct (Ascii.eqb_spec "\"%char x); [congruence|reflexivity].
    + destruct PL as [A B]. cbn [String.append]. rewrite prefix_cons. destruct (Ascii.eqb c x); [|reflexivity]. rewrite prefix_cons.
      assert (Y : frame_char y = false) by (destruct r; apply B). cbn [frame_only] in P2. apply andb_true_iff in P2. rewrite (frame_neq d y (proj1 P2) Y). reflexivity.
Qed.

(* ------------------------------------------------------------ the string methods on strings with holes *)
Fixpoint replace_tok (p : string) (n : list tok) (ts : list tok) (skip : nat) : list tok :=
  match ts with
  | [] => []
  | t :: r => match skip with
              | S k => replace_tok p n r k
              | O => if prefix_tok p ts then app n (replace_tok p n r (Nat.pred (String.length p))) else t :: replace_tok p n r 0
              end
  end.
(** at least [k] characters, none of a hole, lie ahead *)
Fixpoint clear_ahead (k : nat) (ts : list tok) : Prop :=
  match k, ts with O, _ => True | S k, L _ :: r => clear_ahead k r | _, _ => False end.
Lemma prefix_clear p ts : prefix_tok p ts = true -> clear_ahead (String.length p) ts.
Proof.
  revert ts. induction p as [|c p IH]; intros ts Q; [exact I|]. cbn [prefix_tok String.length clear_ahead] in *. destruct ts as [|[d|i] ts]; try discriminate Q.
  destruct (Ascii.eqb c d); [apply IH, Q|discriminate Q].
Qed.
Lemma replace_hole p n : pattern p = true -> forall env ts h, env_ok env ts -> plain h ->
  replace_go p n (h +++ render env ts) 0 = h +++ replace_go p n (render env ts) 0.
Proof.
  intros P env ts h OK PL. assert (G : forall h, plain h -> String.prefix p (h +++ render env ts) = false).
  { intros g G. set (e := fun i => match i with O => g | S i => env i end).
    set (up := map (fun t => match t with L c => L c | H i => H (S i) end) ts).
    assert (R : render e up = render env ts) by (unfold up; clear; induction ts as [|[c|i] ts IH]; cbn; [reflexivity| |]; rewrite IH; reflexivity).
    assert (OK2 : env_ok e (H 0 :: up)).
    { intros i [E|I]; [injection E as <-; exact G|]. apply in_map_iff in I. destruct I as ([c|j] & E & I); [discriminate E|]. injection E as <-. apply OK, I. }
    rewrite <- R. change (g +++ render e up) with (render e (H 0 :: up)). rewrite (prefix_pattern e _ p OK2 P). destruct p; [discriminate P|reflexivity]. }
  revert PL. induction h as [|c h IH]; intro PL; [reflexivity|]. change ((String c h) +++ render env ts) with (String c (h +++ render env ts)).
  cbn [replace_go]. change (String c (h +++ render env ts)) with ((String c h) +++ render env ts). rewrite (G _ PL). cbn [String.append]. f_equal.
  destruct h as [|d h]; [reflexivity|]. apply IH. destruct PL as [_ PL]. exact PL.
Qed.
Lemma replace_tok_ok env p n ts : pattern p = true -> env_ok env ts -> forall k, clear_ahead k ts ->
  replace_go p (render env n) (render env ts) k = render env (replace_tok p n ts k).
Proof.
  intros P. induction ts as [|[c|i] ts IH]; intros OK k C.
  - destruct k; [reflexivity|destruct C].
  - assert (OK' : env_ok env ts) by (intros j J; apply OK; right; exact J).
    cbn [render replace_go replace_tok]. destruct k as [|k]; [|apply IH; [exact OK'|exact C]].
    change (String c (render env ts)) with (render env (L c :: ts)) at 1. rewrite (prefix_pattern env (L c :: ts) p OK P).
    destruct (prefix_tok p (L c :: ts)) eqn:Q.
    + rewrite render_app. f_equal. apply IH; [exact OK'|]. apply prefix_clear in Q. destruct p as [|a p]; [discriminate P|]. exact Q.
    + cbn [render]. f_equal. apply IH; [exact OK'|exact I].
  - assert (OK' : env_ok env ts) by (intros j J; apply OK; right; exact J). destruct k as [|k]; [|destruct C]. cbn [render replace_tok].
    rewrite (replace_hole p _ P env ts (env i) OK' (OK i (or_introl eq_refl))). destruct p as [|a p]; [discriminate P|]. cbn [prefix_tok render]. f_equal. apply IH; [exact OK'|exact I].
Qed.
Lemma replace_tok_holes p n ts i : forall k, (forall j, ~ In (H j) n) -> In (H i) (replace_tok p n ts k) -> In (H i) ts.
Proof.
  induction ts as [|t ts IH]; intros k N Q; [destruct Q|]. cbn [replace_tok] in Q. destruct k as [|k]; [|right; exact (IH _ N Q)].
  destruct (prefix_tok p (t :: ts)).
  - apply in_app_or in Q. destruct Q as [Q|Q]; [exfalso; exact (N i Q)|right; exact (IH _ N Q)].
  - destruct Q as [Q|Q]; [left; exact Q|right; exact (IH _ N Q)].
Qed.
Definition r_tok (p n : string) (ts : list tok) : list tok := replace_tok p (lits n) ts 0.
Lemma lits_no_hole n j : ~ In (H j) (lits n).
Proof. induction n as [|c n IH]; cbn; [tauto|]. intros [Q|Q]; [discriminate Q|exact (IH Q)]. Qed.
Lemma r_tok_ok env p n ts : pattern p = true -> env_ok env ts -> replace p n (render env ts) = render env (r_tok p n ts) /\ env_ok env (r_tok p n ts).
Proof.
  intros P OK. split.
  - unfold replace, r_tok. rewrite <- (render_lits env n) at 1. apply replace_tok_ok; [exact P|exact OK|exact I].
  - intros i Q. apply OK. exact (replace_tok_holes _ _ _ _ _ (lits_no_hole n) Q).
Qed.

Fixpoint lstrip_tok (chars : string) (ts : list tok) : list tok :=
  match ts with L c :: r => if has_char c chars then lstrip_tok chars r else ts | _ => ts end.
Fixpoint rstrip_tok (chars : string) (ts : list tok) : list tok :=
  match ts with
  | [] => []
  | t :: r => let r' := rstrip_tok chars r in
              match t, r' with L c, [] => if has_char c chars then [] else [t] | _, _ => t :: r' end
  end.
Lemma has_frame c chars : frame_only chars = true -> frame_char c = false -> has_char c chars = false.
Proof.
  induction chars as [|d s IH]; intros F C; [reflexivity|]. cbn [frame_only] in F. apply andb_true_iff in F. destruct F as [F1 F2]. cbn [has_char].
  rewrite (IH F2 C), orb_false_r. destruct (Ascii.eqb_spec d c); [subst; congruence|]. first [reflexivity|apply Ascii.eqb_neq; congruence].
Qed.
Lemma lstrip_ok env chars ts : frame_only chars = true -> env_ok env ts -> lstrip chars (render env ts) = render env (lstrip_tok chars ts) /\ env_ok env (lstrip_tok chars ts).
Proof.
  intro F. induction ts as [|[c|i] ts IH]; intro OK; [split; [reflexivity|exact OK]| |].
  - cbn [render lstrip lstrip_tok]. destruct (has_char c chars); [|split; [reflexivity|exact OK]]. apply IH. intros j J. apply OK. right. exact J.
  - cbn [lstrip_tok render]. split; [|exact OK]. destruct (plain_head (env i) (OK i (or_introl eq_refl))) as (c & r & -> & C). cbn [String.append lstrip]. rewrite (has_frame c chars F C). reflexivity.
Qed.
Lemma rstrip_plain chars h s : frame_only chars = true -> plain h -> rstrip chars (h +++ s) = h +++ rstrip chars s.
Proof.
  intros F. induction h as [|c h IH]; intro PL; [destruct PL|]. cbn [String.append rstrip]. destruct h as [|d h].
  - destruct PL as [A _]. cbn [String.append]. rewrite (has_frame c chars F A), andb_false_r. reflexivity.
  - destruct PL as [A B]. rewrite (IH B). cbn [String.append String.eqb andb]. reflexivity.
Qed.
Lemma rstrip_ok env chars ts : frame_only chars = true -> env_ok env ts -> rstrip chars (render env ts) = render env (rstrip_tok chars ts) /\ env_ok env (rstrip_tok chars ts).
Proof.
  intro F. induction ts as [|t ts IH]; intro OK; [split; [reflexivity|exact OK]|].
  destruct IH as [E OK']; [intros j J; apply OK; right; exact J|].
  assert (NZ : forall a r, env_ok env (a :: r) -> render env (a :: r) <> "").
  { intros [x|j] r O; cbn [render]; [discriminate|]. destruct (plain_head (env j) (O j (or_introl eq_refl))) as (x & q & -> & _). discriminate. }
  destruct t as [c|i].
  - cbn [render rstrip rstrip_tok]. rewrite E. destruct (rstrip_tok chars ts) as [|a r] eqn:R.
    + cbn [render String.eqb andb]. destruct (has_char c chars); split; try reflexivity; intros j J; cbn in J; try tauto. destruct J as [J|[]]. discriminate J.
    + specialize (NZ a r OK'). destruct (String.eqb (render env (a :: r)) "") eqn:Z; [apply String.eqb_eq in Z; contradiction|]. cbn [andb]. split; [reflexivity|].
      intros j [J|J]; [discriminate J|apply OK', J].
  - cbn [render rstrip_tok]. rewrite (rstrip_plain chars _ _ F (OK i (or_introl eq_refl))), E. split; [reflexivity|].
    intros j [J|J]; [injection J as <-; apply OK; left; reflexivity|apply OK', J].
Qed.
Definition strip_tok (chars : string) (ts : list tok) : list tok := rstrip_tok chars (lstrip_tok chars ts).
Lemma strip_ok env chars ts : frame_only chars = true -> env_ok env ts -> strip chars (render env ts) = render env (strip_tok chars ts) /\ env_ok env (strip_tok chars ts).
Proof. intros F OK. unfold strip, strip_tok. destruct (lstrip_ok env chars ts F OK) as [-> O]. apply rstrip_ok; assumption. Qed.

Definition clean_tok (ts : list tok) : list tok :=
  let r := r_tok in
  strip_tok " " (strip_tok " " (rstrip_tok "_"
   (r "_{}" "" (r ";}" "}" (r "};}" "}}" (r "};{}" "}" (r ";}" "}" (r "{," "{" (r ",}" "}" (r "{}" ""
   (r "{};" "" (r "{}," "" (r "{{}}" "" (r "_{}" "" (r "()" "" (r "\; {}" "" (r "\; ()" "" ts))))))))))))))))).
Lemma clean_ok env ts : env_ok env ts -> clean_tex (render env ts) = render env (clean_tok ts) /\ env_ok env (clean_tok ts).
Proof.
  intro OK. unfold clean_tex, clean_tok. cbv zeta.
  repeat match goal with |- context [replace ?p ?n (render env ?t)] =>
    let E := fresh in let O := fresh in destruct (r_tok_ok env p n t eq_refl ltac:(assumption)) as [E O]; rewrite E; clear E end.
  match goal with |- context [rstrip "_" (render env ?t)] => let E := fresh in let O := fresh in destruct (rstrip_ok env "_" t eq_refl ltac:(assumption)) as [E O]; rewrite E; clear E end.
  match goal with |- context [strip " " (render env ?t)] => let E := fresh in let O := fresh in destruct (strip_ok env " " t eq_refl ltac:(assumption)) as [E O]; rewrite E; clear E end.
  apply strip_ok; [reflexivity|assumption].
Qed.

Fixpoint contains_tok (p : string) (ts : list tok) : bool := prefix_tok p ts || match ts with [] => false | _ :: r => contains_tok p r end.
Lemma contains_plain p env ts : pattern p = true -> env_ok env ts -> forall h, plain h -> contains p (h +++ render env ts) = contains p (render env ts).
Proof.
  intros P OK h. induction h as [|c h IH]; intro PL; [reflexivity|].
  assert (Z : String.prefix p ((String c h) +++ render env ts) = false).
  { set (e := fun i => match i with O => String c h | S i => env i end).
    set (up := map (fun t => match t with L c => L c | H i => H (S i) end) ts).
    assert (R : render e up = render env ts) by (unfold up; clear; induction ts as [|[x|i] ts IH]; cbn; [reflexivity| |]; rewrite IH; reflexivity).
    assert (OK2 : env_ok e (H 0 :: up)).
    { intros i [E|Q]; [injection E as <-; exact PL|]. apply in_map_iff in Q. destruct Q as ([x|j] & E & Q); [discriminate E|]. injection E as <-. apply OK, Q. }
    rewrite <- R. change ((String c h) +++ render e up) with (render e (H 0 :: up)). rewrite (prefix_pattern e _ p OK2 P). destruct p; [discriminate P|reflexivity]. }
  change ((String c h) +++ render env ts) with (String c (h +++ render env ts)) in *. cbn [contains]. rewrite Z. cbn [orb].
  destruct h as [|d h]; [reflexivity|]. apply IH. destruct PL as [_ PL]. exact PL.
Qed.
Lemma contains_ok env p ts : pattern p = true -> env_ok env ts -> contains p (render env ts) = contains_tok p ts.
Proof.
  intro P. induction ts as [|t ts IH]; intro OK.
  - cbn [render contains contains_tok]. destruct p; [discriminate P|reflexivity].
  - assert (OK' : env_ok env ts) by (intros j J; apply OK; right; exact J). destruct t as [c|i].
    + cbn [render contains contains_tok]. change (String c (render env ts)) with (render env (L c :: ts)). rewrite (prefix_pattern env (L c :: ts) p OK P), (IH OK'). reflexivity.
    + cbn [render contains_tok]. rewrite (contains_plain p env ts P OK' _ (OK i (or_introl eq_refl))), (IH OK'). destruct p; [discriminate P|reflexivity].
Qed.
Fixpoint nesting_tok (o c : ascii) (ts : list tok) (depth : nat) : option nat :=
  match ts with
  | [] => Some depth
  | L x :: r => if Ascii.eqb x o then nesting_tok o c r (S depth)
                else if Ascii.eqb x c then match depth with O => None | S d => nesting_tok o c r d end
                else nesting_tok o c r depth
  | H _ :: r => nesting_tok o c r depth
  end.
Lemma nesting_plain o c h s d : frame_char o = true -> frame_char c = true -> plain h -> nesting o c (h +++ s) d = nesting o c s d.
Proof.
  intros O C. induction h as [|x h IH]; intro PL; [reflexivity|]. cbn [String.append nesting].
  assert (X : frame_char x = false) by (destruct h; apply PL). assert (E1 := frame_neq o x O X). assert (E2 := frame_neq c x C X). rewrite Ascii.eqb_sym in E1, E2. rewrite E1, E2.
  destruct h as [|y h]; [reflexivity|]. apply IH. destruct PL as [_ PL]. exact PL.
Qed.
Lemma nesting_ok env o c ts : frame_char o = true -> frame_char c = true -> env_ok env ts -> forall d, nesting o c (render env ts) d = nesting_tok o c ts d.
Proof.
  intros O C. induction ts as [|[x|i] ts IH]; intros OK d; [reflexivity| |]; assert (OK' : env_ok env ts) by (intros j J; apply OK; right; exact J).
  - cbn [render nesting nesting_tok]. destruct (Ascii.eqb x o); [apply IH, OK'|]. destruct (Ascii.eqb x c); [destruct d; [reflexivity|apply IH, OK']|apply IH, OK'].
  - cbn [render nesting_tok]. rewrite (nesting_plain o c _ _ _ O C (OK i (or_introl eq_refl))). apply IH, OK'.
Qed.

(* ------------------------------------------------------------ templates *)
Fixpoint parse (names : list (string * list tok)) (s : string) (pending : option string) : list tok :=
  let flush n := match find (fun p => String.eqb (fst p) n) names with Some p => snd p | None => lits ("$" +++ n) end in
  match s with
  | "" => match pending with Some n => flush n | None => [] end
  | String c r =>
      match pending with
      | Some n => if is_id_char c then parse names r (Some (n +++ String c ""))
                  else if Ascii.eqb c "$" then app (flush n) (parse names r (Some ""))
                  else app (flush n) (L c :: parse names r None)
      | None => if Ascii.eqb c "$" then parse names r (Some "") else L c :: parse names r None
      end
  end.
Lemma parse_ok env names s : forall pending,
  subst_go (map (fun p => (fst p, render env (snd p))) names) s pending = render env (parse names s pending).
Proof.
  assert (F : forall n, match assoc n (map (fun p => (fst p, render env (snd p))) names) with Some v => v | None => "$" +++ n end =
    render env match find (fun p => String.eqb (fst p) n) names with Some p => snd p | None => lits ("$" +++ n) end).
  { intro n. induction names as [|[k v] l IH]; cbn [map assoc find fst snd]; [symmetry; apply render_lits|]. destruct (String.eqb k n); [reflexivity|exact IH]. }
  induction s as [|c s IH]; intro pending; cbn [subst_go parse].
  - destruct pending as [n|]; [apply F|reflexivity].
  - destruct pending as [n|].
    + destruct (is_id_char c); [apply IH|]. destruct (Ascii.eqb c "$"); rewrite render_app, <- F; [rewrite IH; reflexivity|cbn [render]; rewrite IH; reflexivity].
    + destruct (Ascii.eqb c "$"); [apply IH|cbn [render]; rewrite IH; reflexivity].
Qed.

(* ------------------------------------------------------------ all labels at once *)
Definition names (mt ct st : list tok) : list (string * list tok) := [("M", mt); ("C", ct); ("S", st)].
Definition framed (err : bool) (t : list tok) : list tok := clean_tok (if err then app (lits "\sigma(") (app t (lits ")")) else t).
Definition well (ts : list tok) : bool :=
  forallb (fun p => negb (contains_tok p ts)) ["{}"; ",}"; "{,"; ";}"; "_{}"]
  && match nesting_tok "{" "}" ts 0 with Some 0 => true | _ => false end && match nesting_tok "(" ")" ts 0 with Some 0 => true | _ => false end.
Definition m_choices : list (string * list tok) :=
  app (map (fun t => (snd t, lits (get trans_measurement (fst t) (fst t)))) templates)
  (app (map (fun t => (default_template_string, lits (snd t))) trans_measurement) [(default_template_string, [H 2])]).
Definition roman (i : nat) : list tok := app (lits "\mathrm{") (app [H i] (lits "}")).
Definition c_choices : list (list tok) := [[]; [H 0]; roman 0; lits "{\mathbf{B} \cdot \mathbf{v}}"; lits "\Delta v"].
Definition s_choices : list (list tok) :=
  [[]; [H 1]; app [H 1] (app (lits "_") [H 3]); roman 1; app (lits "^{") (app [H 3] (app (lits "}") (roman 1))); lits "\Delta v"].
Definition all_well : bool :=
  forallb (fun m => forallb (fun c => forallb (fun s => let t := parse (names (snd m) c s) (fst m) None in
    well (framed false t) && well (framed true t)) s_choices) c_choices) m_choices.
Lemma all_well_true : all_well = true.
Proof. vm_compute. reflexivity. Qed.

Lemma framed_ok (env : nat -> string) (P : forall i, plain (env i)) (err : bool) t :
  clean_tex (if err : bool then "\sigma(" +++ render env t +++ ")" else render env t) = render env (framed err t).
Proof.
  unfold framed. assert (OK : forall ts, env_ok env ts) by (intros ts i _; apply P).
  destruct (clean_ok env (if err then app (lits "\sigma(") (app t (lits ")")) else t) (OK _)) as [E _]. rewrite <- E. f_equal.
  destruct err; [|reflexivity]. rewrite !render_app, !render_lits. reflexivity.
Qed.
Lemma well_ok (env : nat -> string) (P : forall i, plain (env i)) t : well t = true -> balanced (render env t) /\ no_empty_piece (render env t).
Proof.
  intro W. assert (OK : env_ok env t) by (intros i _; apply P). unfold well in W. apply andb_true_iff in W. destruct W as [W W3]. apply andb_true_iff in W. destruct W as [W1 W2].
  split; [split|].
  - rewrite (nesting_ok env "{" "}" t eq_refl eq_refl OK). destruct (nesting_tok "{" "}" t 0) as [[|n]|]; [reflexivity|discriminate W2..].
  - rewrite (nesting_ok env "(" ")" t eq_refl eq_refl OK). destruct (nesting_tok "(" ")" t 0) as [[|n]|]; [reflexivity|discriminate W3..].
  - intros p Q. rewrite forallb_forall in W1. specialize (W1 p Q). rewrite contains_ok; [|cbn in Q; repeat (destruct Q as [<-|Q]; [reflexivity|]); destruct Q|exact OK].
    destruct (contains_tok p t); [discriminate W1|reflexivity].
Qed.

(** what can stand for a component, a species: nothing, a plain name, a name in roman type, an isotope … *)
Definition shown_c (t : string) : Prop :=
  t = "" \/ (exists w, plain w /\ (t = w \/ t = "\mathrm{" +++ w +++ "}")) \/ t = "{\mathbf{B} \cdot \mathbf{v}}" \/ t = "\Delta v".
Definition shown_s (t : string) : Prop :=
  t = "" \/ (exists w d, plain w /\ plain d /\ (t = w \/ t = w +++ "_" +++ d \/ t = "\mathrm{" +++ w +++ "}" \/ t = "^{" +++ d +++ "}\mathrm{" +++ w +++ "}")) \/ t = "\Delta v".
Lemma plain_x : plain "x". Proof. split; [reflexivity|discriminate]. Qed.

Lemma build_well tm mt m ct st (err : bool) :
  In (tm, mt) m_choices -> plain m -> shown_c ct -> shown_s st ->
  let env := fun i => match i with 2 => m | _ => "x" end in
  let t := clean_tex (let u := safe_substitute [("M", render env mt); ("C", ct); ("S", st)] tm in if err then "\sigma(" +++ u +++ ")" else u : string) in
  (forall i, In (H i) mt -> i = 2) ->
  balanced t /\ no_empty_piece t.
Proof.
  intros IM PM SC SS env t HM.
  assert (C : exists w ctk, plain w /\ In ctk c_choices /\ (forall e, e 0 = w -> render e ctk = ct)).
  { destruct SC as [->|[(w & PW & [->| ->])|[->| ->]]].
    - exists "x", []. split; [exact plain_x|]. split; [left; reflexivity|]. intros; reflexivity.
    - exists w, [H 0]. split; [exact PW|]. split; [right; left; reflexivity|]. intros e E. cbn [render]. rewrite E. apply sapp_nil_r.
    - exists w, (roman 0). split; [exact PW|]. split; [do 2 right; left; reflexivity|]. intros e E. unfold roman. rewrite !render_app, !render_lits. cbn [render]. rewrite E, sapp_nil_r. reflexivity.
    - exists "x", (lits "{\mathbf{B} \cdot \mathbf{v}}"). split; [exact plain_x|]. split; [do 3 right; left; reflexivity|]. intros; apply render_lits.
    - exists "x", (lits "\Delta v"). split; [exact plain_x|]. split; [do 4 right; left; reflexivity|]. intros; apply render_lits. }
  assert (S : exists w d stk, plain w /\ plain d /\ In stk s_choices /\ (forall e, e 1 = w -> e 3 = d -> render e stk = st)).
  { destruct SS as [->|[(w & d & PW & PD & [->|[->|[->| ->]]])| ->]].
    - exists "x", "x", []. split; [exact plain_x|]. split; [exact plain_x|]. split; [left; reflexivity|]. intros; reflexivity.
    - exists w, "x", [H 1]. split; [exact PW|]. split; [exact plain_x|]. split; [right; left; reflexivity|]. intros e E _. cbn [render]. rewrite E. apply sapp_nil_r.
    - eexists w, d, _. split; [exact PW|]. split; [exact PD|]. split; [do 2 right; left; reflexivity|]. intros e E E'. rewrite !render_app, !render_lits. cbn [render]. rewrite E, E', !sapp_nil_r. reflexivity.
    - eexists w, "x", _. split; [exact PW|]. split; [exact plain_x|]. split; [do 3 right; left; reflexivity|]. intros e E E'. unfold roman. rewrite !render_app, !render_lits. cbn [render]. rewrite E, !sapp_nil_r. reflexivity.
    - eexists w, d, _. split; [exact PW|]. split; [exact PD|]. split; [do 4 right; left; reflexivity|]. intros e E E'. unfold roman. rewrite !render_app, !render_lits. cbn [render]. rewrite E, E', !sapp_nil_r. reflexivity.
    - exists "x", "x", (lits "\Delta v"). split; [exact plain_x|]. split; [exact plain_x|]. split; [do 5 right; left; reflexivity|]. intros; apply render_lits. }
  destruct C as (cw & ctk & PC & IC & RC). destruct S as (sw & sd & stk & PW & PD & IS & RS).
  set (e := fun i => match i with 0 => cw | 1 => sw | 2 => m | _ => sd end).
  assert (PE : forall i, plain (e i)) by (intros [|[|[|i]]]; cbn; assumption).
  assert (RM : render env mt = render e mt).
  { clear - HM. induction mt as [|[c|i] mt IH]; cbn [render]; [reflexivity| |].
    - rewrite IH; [reflexivity|]. intros j J. apply HM. right. exact J.
    - rewrite IH; [|intros j J; apply HM; right; exact J]. rewrite (HM i (or_introl eq_refl)). reflexivity. }
  assert (T : t = render e (framed err (parse (names mt ctk stk) tm None))).
  { rewrite <- (framed_ok e PE). unfold t. cbv zeta. unfold safe_substitute.
    assert (Q : subst_go [("M", render env mt); ("C", ct); ("S", st)] tm None = render e (parse (names mt ctk stk) tm None)).
    { rewrite <- parse_ok. unfold names. cbn [map fst snd]. rewrite RM, (RC e eq_refl), (RS e eq_refl eq_refl). reflexivity. }
    rewrite Q. reflexivity. }
  rewrite T. apply (well_ok e PE). pose proof all_well_true as W. unfold all_well in W. rewrite forallb_forall in W. specialize (W _ IM). rewrite forallb_forall in W. specialize (W _ IC).
  rewrite forallb_forall in W. specialize (W _ IS). cbv zeta in W. cbn [fst snd] in W. apply andb_true_iff in W. destruct err; apply W.
Qed.

(* ------------------------------------------------------------ the tables *)
Definition keys (l : list (string * string)) : list string := map fst l.
Lemma plain_dec h : plain h \/ ~ plain h.
Proof.
  induction h as [|c h IH]; [right; intros []|]. destruct h as [|d h].
  - cbn [plain]. destruct (frame_char c); [right; intros [Q _]; discriminate Q|]. destruct (Ascii.eqb_spec c "\"%char) as [->|N]; [right; tauto|left; tauto].
  - change (plain (String c (String d h))) with (frame_char c = false /\ plain (String d h)). destruct (frame_char c); [right; intros [Q _]; discriminate Q|]. destruct IH; [left|right]; tauto.
Qed.
Lemma assoc_key l k : In k (keys l) -> exists v, assoc k l = Some v /\ In (k, v) l.
Proof.
  induction l as [|[a b] l IH]; intros Q; [destruct Q|]. cbn [assoc]. destruct (String.eqb_spec a k) as [->|N].
  - exists b. split; [reflexivity|left; reflexivity].
  - destruct Q as [Q|Q]; [exfalso; exact (N Q)|]. destruct (IH Q) as (v & V & W). exists v. split; [exact V|right; exact W].
Qed.
Lemma assoc_other l k : ~ In k (keys l) -> assoc k l = None.
Proof.
  induction l as [|[a b] l IH]; intros N; [reflexivity|]. cbn [assoc]. destruct (String.eqb_spec a k) as [->|E]; [exfalso; apply N; left; reflexivity|].
  apply IH. intro Q. apply N. right. exact Q.
Qed.
(** no table is used on an empty name *)
Lemma component_shown c : c = "" \/ In c (keys trans_component) \/ plain c -> shown_c (get trans_component c c).
Proof.
  assert (T : forall k, In k (keys trans_component) -> shown_c (get trans_component k k)).
  { intros k K. cbn in K. assert (PL : forall w, plain w -> shown_c w) by (intros w PW; right; left; exists w; split; [exact PW|left; reflexivity]).
    assert (RM : forall w, plain w -> shown_c ("\mathrm{" +++ w +++ "}")) by (intros w PW; right; left; exists w; split; [exact PW|right; reflexivity]).
    repeat (destruct K as [<-|K]; [first [right; right; left; reflexivity|right; right; right; reflexivity
      |solve [apply (PL (get trans_component _ _)); vm_compute; intuition (try reflexivity; try discriminate)]
      |apply (RM "R"); vm_compute; intuition discriminate|apply (RM "scalar"); vm_compute; intuition discriminate|apply (RM "const"); vm_compute; intuition discriminate]|]). destruct K. }
  intros [->|[K|P]]; [left; reflexivity|exact (T c K)|].
  destruct (in_dec string_dec c (keys trans_component)) as [K|N]; [exact (T c K)|]. unfold get. rewrite (assoc_other _ _ N). right. left. exists c. split; [exact P|left; reflexivity].
Qed.
Lemma species_shown s : s = "" \/ In s (keys trans_species) \/ plain (make_species s) -> shown_s (make_species s).
Proof.
  intros [->|[K|P]]; [left; reflexivity| |right; left; exists (make_species s), "x"; split; [exact P|split; [exact plain_x|left; reflexivity]]].
  assert (E : make_species s = get trans_species s s).
  { assert (A : forallb (fun k => String.eqb (make_species k) (get trans_species k k)) (keys trans_species) = true) by (vm_compute; reflexivity).
    rewrite forallb_forall in A. apply String.eqb_eq, A, K. }
  rewrite E. clear E.
  assert (PL : forall w, plain w -> shown_s w) by (intros w PW; right; left; exists w, "x"; split; [exact PW|split; [exact plain_x|left; reflexivity]]).
  assert (SB : forall w d, plain w -> plain d -> shown_s (w +++ "_" +++ d)) by (intros w d PW PD; right; left; exists w, d; split; [exact PW|split; [exact PD|right; left; reflexivity]]).
  assert (RM : forall w, plain w -> shown_s ("\mathrm{" +++ w +++ "}")) by (intros w PW; right; left; exists w, "x"; split; [exact PW|split; [exact plain_x|right; right; left; reflexivity]]).
  assert (IS : forall d w, plain w -> plain d -> shown_s ("^{" +++ d +++ "}\mathrm{" +++ w +++ "}")) by (intros d w PW PD; right; left; exists w, d; split; [exact PW|split; [exact PD|right; right; right; reflexivity]]).
  cbn in K.
  repeat (destruct K as [<-|K]; [first [right; right; reflexivity
    |solve [apply (PL (get trans_species _ _)); vm_compute; intuition (try reflexivity; try discriminate)]
    |first [apply (SB "\alpha" "1")|apply (SB "\alpha" "2")|apply (SB "p" "1")|apply (SB "p" "2")
           |apply (RM "He")|apply (RM "C")|apply (RM "Fe")|apply (RM "H")|apply (RM "Mg")|apply (RM "Ne")|apply (RM "N")|apply (RM "O")|apply (RM "Si")|apply (RM "S")
           |apply (IS "3" "He")|apply (IS "4" "He")|apply (IS "12" "C")|apply (IS "14" "N")|apply (IS "16" "O")|apply (IS "20" "Ne")|apply (IS "24" "Mg")|apply (IS "28" "Si")|apply (IS "32" "S")|apply (IS "40" "Ca")];
     vm_compute; intuition discriminate]|]). destruct K.
Qed.

(** measurement names: the table names, or any plain name *)
Definition measured (m : string) : Prop := In m (keys templates) \/ In m (keys trans_measurement) \/ plain m.
Lemma under_plain m : plain m -> forall r, contains "_err" (m +++ r) = contains "_err" r /\ replace_go "_err" "" (m +++ r) 0 = m +++ replace_go "_err" "" r 0.
Proof.
  induction m as [|c m IH]; intros P r; [destruct P|].
  assert (C : String.prefix "_err" (String c (m +++ r)) = false).
  { rewrite prefix_cons. assert (F : frame_char c = false) by (destruct m; apply P). rewrite (frame_neq "_" c eq_refl F). reflexivity. }
  cbn [String.append contains replace_go]. rewrite C. cbn [orb]. destruct m as [|d m]; [split; reflexivity|].
  destruct (IH (proj2 P) r) as [A B]. split; [exact A|rewrite B; reflexivity].
Qed.
Lemma names_err m : measured m -> contains "_err" m = false /\ contains "_err" (m +++ "_err") = true /\ replace "_err" "" (m +++ "_err") = m.
Proof.
  assert (T : forall l, forallb (fun m => negb (contains "_err" m) && contains "_err" (m +++ "_err") && String.eqb (replace "_err" "" (m +++ "_err")) m) (keys l) = true ->
    forall m, In m (keys l) -> contains "_err" m = false /\ contains "_err" (m +++ "_err") = true /\ replace "_err" "" (m +++ "_err") = m).
  { intros l A k K. rewrite forallb_forall in A. specialize (A k K). rewrite !andb_true_iff in A. destruct A as [[A B] C]. apply String.eqb_eq in C.
    destruct (contains "_err" k); [discriminate A|]. tauto. }
  intros [K|[K|P]]; [apply (T templates); [vm_compute; reflexivity|exact K]|apply (T trans_measurement); [vm_compute; reflexivity|exact K]|].
  destruct (under_plain m P "") as [A _]. rewrite sapp_nil_r in A. destruct (under_plain m P "_err") as [B C].
  split; [exact A|]. split; [rewrite B; reflexivity|]. unfold replace. rewrite C. apply sapp_nil_r.
Qed.
Lemma choice m : measured m -> exists mt w, In (get templates m default_template_string, mt) m_choices /\ plain w /\ (forall i, In (H i) mt -> i = 2) /\
  render (fun i => match i with 2 => w | _ => "x" end) mt = get trans_measurement m m.
Proof.
  intro MM. unfold m_choices. destruct (in_dec string_dec m (keys templates)) as [K|NT].
  - destruct (assoc_key _ _ K) as (v & V & Q). exists (lits (get trans_measurement m m)), "x". split; [|split; [exact plain_x|split; [intros i J; destruct (lits_no_hole _ _ J)|apply render_lits]]].
    apply in_or_app. left. apply in_map_iff. exists (m, v). split; [|exact Q]. cbn [fst snd]. f_equal. unfold get. rewrite V. reflexivity.
  - destruct (in_dec string_dec m (keys trans_measurement)) as [K|NM].
    + destruct (assoc_key _ _ K) as (v & V & Q). exists (lits v), "x". split; [|split; [exact plain_x|split; [intros i J; destruct (lits_no_hole _ _ J)|]]].
      * apply in_or_app. right. apply in_or_app. left. apply in_map_iff. exists (m, v). split; [|exact Q]. cbn [fst snd]. f_equal. unfold get. rewrite (assoc_other _ _ NT). reflexivity.
      * unfold get. rewrite V. apply render_lits.
    + destruct MM as [K|[K|P]]; [contradiction..|]. exists [H 2], m. split; [|split; [exact P|split; [intros i [E|[]]; injection E as <-; reflexivity|]]].
      * apply in_or_app. right. apply in_or_app. right. left. f_equal. unfold get. rewrite (assoc_other _ _ NT). reflexivity.
      * cbn [render]. rewrite sapp_nil_r. unfold get. rewrite (assoc_other _ _ NM). reflexivity.
Qed.

(** C184: the TeX of a label balances its braces and parentheses and shows no empty or dangling group — for every
    measurement of the tables and every other plain name, every component and species of the tables or plain, or none,
    and for the uncertainties "_err" of all of these. *)
Theorem C184_well_formed : forall m c s, measured m ->
  (c = "" \/ In c (keys trans_component) \/ plain c) -> (s = "" \/ In s (keys trans_species) \/ plain (make_species s)) ->
  forall t, (t = one_tex (mkmcs m c s) \/ t = one_tex (mkmcs (m +++ "_err") c s)) ->
  balanced t /\ no_empty_piece t.
Proof.
  intros m c s MM CC SS t T. destruct (names_err m MM) as (N1 & N2 & N3). destruct (choice m MM) as (mt & w & IM & PW & HM & RM).
  pose proof (fun err => build_well _ mt w _ _ err IM PW (component_shown c CC) (species_shown s SS) HM) as B. cbv zeta in B. rewrite RM in B.
  destruct T as [->| ->]; unfold one_tex, base_m, is_err; cbn [m_ c_ s_].
  - rewrite N1. exact (B false).
  - rewrite N2, N3. exact (B true).
Qed.

(** the frame of a quantity without a template of its own, part by part *)
Theorem C184_default_frame : forall m c s, plain m -> ~ In m (keys templates) -> ~ In m (keys trans_measurement) ->
  plain c -> ~ In c (keys trans_component) -> plain (make_species s) ->
  one_tex (mkmcs m c s) = "{" +++ m +++ "}_{{" +++ c +++ "};{" +++ make_species s +++ "}}" /\
  one_tex (mkmcs m c "") = "{" +++ m +++ "}_{{" +++ c +++ "}}" /\
  one_tex (mkmcs m "" s) = "{" +++ m +++ "}_{{" +++ make_species s +++ "}}" /\
  one_tex (mkmcs m "" "") = "{" +++ m +++ "}" /\
  one_tex (mkmcs (m +++ "_err") c s) = "\sigma({" +++ m +++ "}_{{" +++ c +++ "};{" +++ make_species s +++ "}})".
Proof.
  intros m c s PM NT NM PC NC PS. destruct (names_err m (or_intror (or_intror PM))) as (N1 & N2 & N3).
  set (e := fun i => match i with 0 => c | 1 => make_species s | _ => m end).
  assert (PE : forall i, plain (e i)) by (intros [|[|i]]; cbn; assumption).
  assert (B : forall err ctk stk, clean_tex (if err : bool then "\sigma(" +++ safe_substitute [("M", m); ("C", render e ctk); ("S", render e stk)] default_template_string +++ ")"
      else safe_substitute [("M", m); ("C", render e ctk); ("S", render e stk)] default_template_string) = render e (framed err (parse (names [H 2] ctk stk) default_template_string None))).
  { intros err ctk stk. rewrite <- (framed_ok e PE). unfold safe_substitute.
    assert (Q : subst_go [("M", m); ("C", render e ctk); ("S", render e stk)] default_template_string None = render e (parse (names [H 2] ctk stk) default_template_string None)).
    { rewrite <- parse_ok. unfold names. cbn [map fst snd render]. change (e 2) with m. rewrite sapp_nil_r. reflexivity. }
    rewrite Q. reflexivity. }
  unfold one_tex, base_m, is_err; cbn [m_ c_ s_]. rewrite N1, N2, N3. unfold get. rewrite !(assoc_other templates m NT), !(assoc_other trans_measurement m NM), !(assoc_other trans_component c NC).
  pose proof (B false [H 0] [H 1]) as B1. pose proof (B false [H 0] []) as B2. pose proof (B false [] [H 1]) as B3. pose proof (B false [] []) as B4. pose proof (B true [H 0] [H 1]) as B5.
  cbn [render] in B1, B2, B3, B4, B5. change (e 0) with c in *. change (e 1) with (make_species s) in *. rewrite !(sapp_nil_r c), !(sapp_nil_r (make_species s)) in B1, B5. rewrite (sapp_nil_r c) in B2. rewrite (sapp_nil_r (make_species s)) in B3.
  change (assoc "" trans_component) with (@None string). change (make_species "") with "".
  assert (V : forall err ctk stk ts, framed err (parse (names [H 2] ctk stk) default_template_string None) = ts -> render e (framed err (parse (names [H 2] ctk stk) default_template_string None)) = render e ts) by (intros; congruence).
  split; [|split; [|split; [|split]]].
  - rewrite B1. erewrite V; [|vm_compute; reflexivity]. cbn [render String.append]. change (e 2) with m; reflexivity.
  - rewrite B2. erewrite V; [|vm_compute; reflexivity]. cbn [render String.append]. change (e 2) with m; reflexivity.
  - rewrite B3. erewrite V; [|vm_compute; reflexivity]. cbn [render String.append]. change (e 2) with m; reflexivity.
  - rewrite B4. erewrite V; [|vm_compute; reflexivity]. cbn [render String.append]. change (e 2) with m; reflexivity.
  - rewrite B5. erewrite V; [|vm_compute; reflexivity]. cbn [render String.append]. change (e 2) with m; reflexivity.
Qed.

(** The clean-up is not complete: an uncertainty of a quantity shown with a species alone keeps a dangling
    subscript when no species is given, and a flux of nothing keeps its empty parentheses. *)
Theorem C184_dangling_refuted :
  one_tex (mkmcs "zp_err" "" "") = "\sigma(Z^+_)" /\
  one_tex (mkmcs "flux" "" "") = "\mathrm{Flux}()" /\
  (forall s, plain (make_species s) -> one_tex (mkmcs "cos_theta" "" s) = "\cos \theta_{_{" +++ make_species s +++ "}}").
Proof.
  split; [vm_compute; reflexivity|]. split; [vm_compute; reflexivity|]. intros s P.
  set (e := fun i : nat => make_species s). assert (PE : forall i, plain (e i)) by (intro; exact P).
  pose proof (framed_ok e PE false (parse (names (lits "\cos\theta") [] [H 1]) (get templates "cos_theta" default_template_string) None)) as F. cbv iota in F.
  rewrite <- parse_ok in F. unfold names in F. cbn [map fst snd] in F. rewrite render_lits in F. cbn [render] in F. rewrite sapp_nil_r in F.
  change (e 1) with (make_species s) in F. change (one_tex (mkmcs "cos_theta" "" s)) with (clean_tex (subst_go [("M", "\cos\theta"); ("C", ""); ("S", make_species s)] (get templates "cos_theta" default_template_string) None)).
  rewrite F.
  assert (V : forall a b, a = b -> render e a = render e b) by (intros; congruence). erewrite V; [|vm_compute; reflexivity]. cbn [render String.append]. reflexivity.
Qed.

(** The hypotheses are met by ordinary labels. *)
Example C184_ex : one_tex (mkmcs "Tani" "zz" "q") = "{Tani}_{{zz};{q}}" /\ one_tex (mkmcs "Tani" "" "") = "{Tani}".
Proof.
  assert (P1 : plain "Tani") by (vm_compute; intuition discriminate). assert (P2 : plain "zz") by (vm_compute; intuition discriminate).
  destruct (C184_default_frame "Tani" "zz" "q" P1) as (A & _ & _ & B & _); [vm_compute; intuition discriminate..|]. split; [exact A|exact B].
Qed.
