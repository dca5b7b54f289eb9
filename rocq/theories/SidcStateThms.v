(** C244: what a sunspot-number object remembers, over every history of calls. *)
From Coq Require Import List String Bool ZArith Lia.
From Verif Require Import Py PyStr Num Solar Activity SidcState.
Import ListNotations.
Open Scope list_scope.
Section S.
  Context {T : Type} {A : Arith T}.
  Variable interp : list (Z * T) -> list Z -> result (list T).
  Variable cs : list cyc.
  Notation after := (after interp cs). Notation act := (act interp cs).

  (** the specification: the last normalisation asked for under an allowed name, counting the first read of [normalized] as "max"; whether the later steps
      of the call fail makes no difference *)
  Definition last_name (l : list call) : option string :=
    fold_left (fun n c => match c with
      | Normalize s => if existsb (String.eqb s) ["max"; "zscore"; "feature-scale"]%string then Some s else n
      | Normalized => match n with None => Some "max"%string | _ => n end
      | Interpolate _ _ => n end) l None.
  Definition method (s : string) : norm_by := if String.eqb s "max" then ByMax else if String.eqb s "zscore" then ByZscore else ByFeature.

  Lemma norm_of_spec s : norm_of s = if existsb (String.eqb s) ["max"; "zscore"; "feature-scale"]%string then Some (method s) else None.
  Proof. unfold norm_of, method. cbn. destruct (String.eqb s "max"), (String.eqb s "zscore"), (String.eqb s "feature-scale"); reflexivity. Qed.
  Lemma act_data c o : s_at (fst (act c o)) = s_at o /\ s_ssn (fst (act c o)) = s_ssn o.
  Proof.
    destruct c as [s| |k t]; cbn [SidcState.act]; unfold do_normalized, do_interpolate, do_normalize.
    - destruct (norm_of s); [|auto]. destruct (s_int o) as [t|]; [|auto]. destruct (t_ssn t); auto.
    - destruct (s_nssn o); [auto|]. cbn [norm_of String.eqb]. destruct (norm_of "max"); [|auto]. destruct (s_int o) as [t|]; [|auto]. destruct (t_ssn t); auto.
    - destruct (if k then s_nssn o else Some (s_ssn o)); [|auto]. destruct (interp _ t); auto.
  Qed.
  Lemma after_snoc l c o : after (l ++ [c]) o = fst (act c (after l o)).
  Proof. unfold SidcState.after. rewrite fold_left_app. reflexivity. Qed.
  Lemma last_snoc l c : last_name (l ++ [c]) = match c with
      | Normalize s => if existsb (String.eqb s) ["max"; "zscore"; "feature-scale"]%string then Some s else last_name l
      | Normalized => match last_name l with None => Some "max"%string | n => n end
      | Interpolate _ _ => last_name l end.
  Proof. unfold last_name. rewrite fold_left_app. cbn. destruct c; try reflexivity. destruct (fold_left _ l None); reflexivity. Qed.

  Lemma invariant at_ ssn l : let o := after l (fresh at_ ssn) in s_at o = at_ /\ s_ssn o = ssn /\
    s_by o = option_map method (last_name l) /\ s_nssn o = option_map (fun s => run_normalization (method s) cs (combine at_ ssn)) (last_name l) /\
    match s_int o with Some t => match t_ssn t, t_nssn t with
      | Some v, Some n => exists b, s_by o = Some b /\ n = run_normalization b cs (combine (t_at t) v)
      | None, None => False | _, _ => True end | None => True end.
  Proof.
    induction l as [|c l IH] using rev_ind; [cbn; auto 6|]. cbv zeta in *. rewrite after_snoc, last_snoc. destruct IH as [I1 [I2 [I3 [I4 I5]]]].
    set (o := after l (fresh at_ ssn)) in *. destruct (act_data c o) as [D1 D2]. rewrite D1, D2. split; [exact I1|]. split; [exact I2|].
    assert (N : forall s, existsb (String.eqb s) ["max"; "zscore"; "feature-scale"]%string = true ->
       let o' := fst (do_normalize cs s o) in s_by o' = Some (method s) /\ s_nssn o' = Some (run_normalization (method s) cs (combine at_ ssn)) /\
       match s_int o' with Some t => match t_ssn t, t_nssn t with
      | Some v, Some n => exists b, s_by o' = Some b /\ n = run_normalization b cs (combine (t_at t) v)
      | None, None => False | _, _ => True end | None => True end).
    { intros s E. unfold do_normalize. rewrite norm_of_spec, E, I1, I2. destruct (s_int o) as [t|]; [|cbn; auto].
      destruct (t_ssn t) eqn:ET; cbn [fst s_by s_nssn s_int t_ssn t_nssn t_at]; split; [reflexivity|split; [reflexivity|]|reflexivity|split; [reflexivity|]].
      - eexists; split; reflexivity.
      - rewrite ET in *. exact I5. }
    destruct c as [s| |k t]; cbn [SidcState.act].
    - destruct (existsb _ _) eqn:E; [destruct (N s E) as [A1 [A2 A3]]; split; [exact A1|split; [exact A2|exact A3]]|].
      unfold do_normalize. rewrite norm_of_spec, E. cbn [fst]. auto.
    - unfold do_normalized. rewrite I4. destruct (last_name l) as [n|] eqn:E; cbn [option_map].
      + cbn [fst]. split; [exact I3|]. split; [exact I4|exact I5].
      + destruct (N "max"%string eq_refl) as [A1 [A2 A3]]. split; [exact A1|split; [exact A2|exact A3]].
    - unfold do_interpolate. destruct (if k then s_nssn o else Some (s_ssn o)) as [col|]; [|cbn [fst]; auto]. destruct (interp _ t) as [v|e]; [|cbn [fst]; auto].
      cbn [fst s_by s_nssn s_int]. split; [exact I3|split; [exact I4|]]. destruct k; exact I.
  Qed.

  (** Over every history of calls, also failed ones: the sunspot numbers never change; norm_by is the method asked for last (an AttributeError before the first);
      [normalized] is the whole column normalised by that method, never a mixture of two. *)
  Theorem C244_the_last_method_counts : forall at_ ssn l, let o := after l (fresh at_ ssn) in
    s_at o = at_ /\ s_ssn o = ssn /\
    get_norm_by o = match last_name l with Some s => Ok (method s) | None => Err AttributeError end /\
    (forall s, last_name l = Some s -> act Normalized o = (o, Ok (combine at_ (run_normalization (method s) cs (combine at_ ssn))))) /\
    (last_name l = None -> act Normalized o = act (Normalize "max"%string) o).
  Proof.
    intros at_ ssn l. cbv zeta. destruct (invariant at_ ssn l) as [I1 [I2 [I3 [I4 _]]]]. split; [exact I1|]. split; [exact I2|]. split.
    - unfold get_norm_by. rewrite I3. destruct (last_name l); reflexivity.
    - split; intros; cbn [SidcState.act]; unfold do_normalized; rewrite I4, H, ?I1; reflexivity.
  Qed.
  (** Whenever the interpolated table has both columns, its normalised column is that of its own sunspot numbers, by the method norm_by reports:
      a stale one is never left beside fresh numbers. *)
  Theorem C244_interpolated_in_step : forall at_ ssn l t v n, let o := after l (fresh at_ ssn) in
    s_int o = Some t -> t_ssn t = Some v -> t_nssn t = Some n -> exists b, get_norm_by o = Ok b /\ n = run_normalization b cs (combine (t_at t) v).
  Proof.
    intros at_ ssn l t v n. cbv zeta. intros E1 E2 E3. destruct (invariant at_ ssn l) as [_ [_ [_ [_ I5]]]]. rewrite E1, E2, E3 in I5.
    destruct I5 as [b [B N]]. exists b. unfold get_norm_by. rewrite B. auto.
  Qed.
  (** An unknown method is refused and changes nothing; after interpolating the numbers themselves a normalisation succeeds and fills the table too;
      after interpolating the normalised column alone every further normalisation is a KeyError, although the data and norm_by have changed already. *)
  Theorem C244_outcomes : forall at_ ssn l s, let o := after l (fresh at_ ssn) in
    (existsb (String.eqb s) ["max"; "zscore"; "feature-scale"]%string = false -> act (Normalize s) o = (o, Err AssertionError)) /\
    (existsb (String.eqb s) ["max"; "zscore"; "feature-scale"]%string = true ->
      get_norm_by (fst (act (Normalize s) o)) = Ok (method s) /\
      (match s_int o with Some t => t_ssn t <> None | None => True end <-> exists r, snd (act (Normalize s) o) = Ok r) /\
      (forall t v, s_int o = Some t -> t_ssn t = Some v -> exists t', s_int (fst (act (Normalize s) o)) = Some t' /\ t_nssn t' <> None) /\
      (forall t, s_int o = Some t -> t_ssn t = None -> snd (act (Normalize s) o) = Err KeyError)).
  Proof.
    intros at_ ssn l s. cbv zeta. set (o := after l (fresh at_ ssn)). cbn [SidcState.act]. unfold do_normalize. rewrite norm_of_spec. split; intro E; rewrite E; [reflexivity|].
    destruct (s_int o) as [t|] eqn:EI; [destruct (t_ssn t) eqn:ET|]; cbn [fst snd s_int s_by get_norm_by].
    - split; [reflexivity|]. split; [split; [eexists; reflexivity|discriminate]|]. split; [intros; eexists; split; [reflexivity|discriminate]|]. intros t0 Q1 Q2. congruence.
    - split; [reflexivity|]. split; [split; [congruence|intros [r H]; discriminate]|]. split; [intros; congruence|reflexivity].
    - split; [reflexivity|]. split; [split; [eexists; reflexivity|auto]|]. split; intros; discriminate.
  Qed.
  (** A normalisation that succeeds returns exactly the samples of the stored column that lie in one of the cycles. *)
  Theorem C244_returned_samples : forall at_ ssn l s r, let o := after l (fresh at_ ssn) in snd (act (Normalize s) o) = Ok r ->
    forall p, In p r <-> In p (combine at_ (run_normalization (method s) cs (combine at_ ssn))) /\ exists c, In c cs /\ (i_l (c_all c) < fst p <= i_r (c_all c))%Z.
  Proof.
    intros at_ ssn l s r. cbv zeta. destruct (invariant at_ ssn l) as [I1 [I2 _]]. cbn [SidcState.act]. unfold do_normalize. rewrite norm_of_spec, I1, I2.
    destruct (existsb _ _); [|discriminate]. intros H p.
    assert (R : r = inside cs (combine at_ (run_normalization (method s) cs (combine at_ ssn)))).
    { destruct (s_int _) as [t|]; [destruct (t_ssn t)|]; cbn in H; congruence. }
    subst r. unfold inside. rewrite filter_In, existsb_exists. apply and_iff_compat_l. split; intros [c [Hc B]]; exists c; (split; [exact Hc|]); unfold in_ivl in *.
    - apply andb_prop in B. lia.
    - apply andb_true_intro. lia.
  Qed.
  (** Interpolating replaces the table, and nothing else, by the interpolation of the samples present of the column asked for; a failure changes nothing;
      the normalised column before any normalisation is a KeyError. *)
  Theorem C244_interpolation : forall at_ ssn l k target, let o := after l (fresh at_ ssn) in
    let present := fun col => filter (fun p => negb (aisnan (snd p))) (combine at_ col) in
    (k = true -> last_name l = None -> act (Interpolate k target) o = (o, Err KeyError)) /\
    (forall col, (if k then option_map (fun s => run_normalization (method s) cs (combine at_ ssn)) (last_name l) else Some ssn) = Some col ->
      (forall e, interp (present col) target = Err e -> act (Interpolate k target) o = (o, Err e)) /\
      (forall v, interp (present col) target = Ok v -> let o' := fst (act (Interpolate k target) o) in
        snd (act (Interpolate k target) o) = Ok (combine target v) /\ s_nssn o' = s_nssn o /\ s_by o' = s_by o /\ s_ssn o' = s_ssn o /\
        exists t, s_int o' = Some t /\ t_at t = target /\ t_ssn t = (if k then None else Some v) /\ t_nssn t = (if k then Some v else None))).
  Proof.
    intros at_ ssn l k target. cbv zeta. destruct (invariant at_ ssn l) as [I1 [I2 [_ [I4 _]]]]. cbn [SidcState.act]. unfold do_interpolate. rewrite I1, I2, I4. split.
    - intros -> ->. reflexivity.
    - intros col ->. split; intros e ->; [reflexivity|]. destruct k; cbn; eauto 10.
  Qed.
End S.

(** non-trivial histories: a table with both columns, and one whose normalisation is a KeyError *)
Section Example244.
  Context {T : Type} {A : Arith T} (x y z : T).
  Let interp : list (Z * T) -> list Z -> result (list T) := fun _ t => Ok (map (fun _ => y) t).
  Let c0 : cyc := mkC 1 (mkI 0 5) None (mkI 0 10).
  Example both_columns : exists t n, s_int (SidcState.after interp [c0] [Normalized; Interpolate true [3%Z]; Normalize "zscore"; Interpolate false [2; 4]%Z; Normalize "feature-scale"; Normalize "median"]%string (fresh [1; 6; 12]%Z [x; y; z])) = Some t
    /\ t_ssn t = Some [y; y] /\ t_nssn t = Some n /\ List.length n = 2%nat.
  Proof. do 2 eexists. cbn. repeat split; reflexivity. Qed.
  Example key_error : let o := SidcState.after interp [c0] [Normalized; Interpolate true [3%Z]] (fresh [1; 6; 12]%Z [x; y; z]) in
    snd (SidcState.act interp [c0] (Normalize "zscore") o) = Err KeyError /\ get_norm_by (fst (SidcState.act interp [c0] (Normalize "zscore") o)) = Ok ByZscore.
  Proof. split; reflexivity. Qed.
End Example244.
