(** C42 (swap_protons), C93 (normal_parameters). *)
From Coq Require Import List String Bool Arith ZArith Reals Lra Lia Permutation.
From Verif Require Import Py PyStr Sort Num Species Frame FrameProofs Tools.
Import ListNotations.
Open Scope string_scope.
Open Scope list_scope.
Open Scope R_scope.

(* ---------------------------------------------------------------- specification *)
(** The row with the values of p1 and p2 exchanged. *)
Definition other (s : string) : string := if String.eqb s "p1" then "p2" else if String.eqb s "p2" then "p1" else s.
Definition exchange (r : row XR) : row XR := fun k => r (kM k, kC k, other (kS k)).
(** Both protons have the same measurements. *)
Definition same_columns (f : frame XR) : Prop :=
  forall m c, In (m, c, "p1") (f_cols f) <-> In (m, c, "p2") (f_cols f).
(** Densities are non-negative numbers, infinities or missing. *)
Definition density (x : XR) : Prop := match x with Fin a => 0 <= a | PInf | NaN => True | MInf => False end.
Definition densities_ok (f : frame XR) : Prop :=
  forall z r s, In (z, r) (f_rows f) -> density (r ("n", "", s)).
Definition n_of (s : string) (r : row XR) : XR := r ("n", "", s).

(* ---------------------------------------------------------------- lemmas *)
Lemma flag_positive (r : row XR) a b :
  r ("n", "", "p1") = Fin a -> r ("n", "", "p2") = Fin b -> 0 <= a -> 0 <= b ->
  swap_flag r = true <-> a < b.
Proof.
  intros H1 H2 Pa Pb. unfold swap_flag, agtb. rewrite H1, H2, fin_ofZ.
  destruct (Req_EM_T a 0) as [->|Na].
  - change ((Fin b / Fin 0)%num) with (xdiv (Fin b) (Fin 0)). unfold xdiv.
    assert (E : Reqb 0 0 = true) by (apply Reqb_true; reflexivity). rewrite E. unfold inf_sign.
    destruct (Rltb 0 b) eqn:L.
    + apply Rltb_true in L. split; [intros _; exact L|intros _; reflexivity].
    + assert (L' := L). apply Rltb_false in L'. destruct (Rltb b 0) eqn:L2; [apply Rltb_true in L2; lra|].
      split; [discriminate|lra].
  - rewrite fin_div by exact Na. rewrite fin_ltb, Rltb_true. split; intros H.
    + apply (Rmult_lt_compat_r a) in H; [|lra]. unfold Rdiv in H. rewrite Rmult_assoc, Rinv_l in H by lra. lra.
    + apply (Rmult_lt_reg_r a); [lra|]. unfold Rdiv. rewrite Rmult_assoc, Rinv_l by lra. lra.
Qed.
Lemma swap_ok (d : frame XR) out : swap_protons d = Ok out ->
  In ("n", "", "p1") (f_cols d) /\ In ("n", "", "p2") (f_cols d) /\
  f_rows (s_table out) = map (fun zr => (fst zr, swap_row (f_cols d) (snd zr))) (f_rows d) /\
  s_flags out = map (fun zr => swap_flag (snd zr)) (f_rows d) /\
  Permutation (f_cols (s_table out)) (f_cols d) /\
  Permutation (s_labels out) (swap_label :: f_cols d).
Proof.
  unfold swap_protons. destruct (has_label kS "p1" (f_cols d)); [|discriminate].
  destruct (has_label kS "p2" (f_cols d)); [|discriminate]. cbn [negb].
  destruct (forallb _ ["p1"; "p2"]) eqn:F; [|discriminate]. cbn [negb]. intros H. injection H as <-.
  cbn [forallb] in F. apply andb_prop in F. destruct F as [F1 F2]. rewrite andb_true_r in F2. apply andb_prop in F1, F2.
  destruct F1 as [F1 _]. destruct F2 as [F2 _].
  split; [apply mem_key_In; exact F1|]. split; [apply mem_key_In; exact F2|].
  split; [reflexivity|]. split; [reflexivity|]. cbn [s_table f_cols s_labels].
  assert (P : Permutation (filter (fun k => negb (of_species "p1" k || of_species "p2" k)) (f_cols d) ++
                filter (of_species "p1") (f_cols d) ++ filter (of_species "p2") (f_cols d)) (f_cols d)).
  { clear F1 F2. induction (f_cols d) as [|k l IH]; [constructor|]. cbn [filter]. unfold of_species in *.
    destruct (String.eqb (kS k) "p1") eqn:E1.
    - apply String.eqb_eq in E1. rewrite E1. cbn [orb negb String.eqb Ascii.eqb Bool.eqb].
      cbn [app]. eapply perm_trans; [apply Permutation_sym, Permutation_middle|]. apply perm_skip, IH.
    - destruct (String.eqb (kS k) "p2") eqn:E2; cbn [orb negb].
      + rewrite app_assoc. eapply perm_trans; [apply Permutation_sym, Permutation_middle|]. apply perm_skip.
        rewrite <- app_assoc. exact IH.
      + cbn [app]. apply perm_skip, IH. }
  split.
  - eapply perm_trans; [apply sort_by_perm|exact P].
  - eapply perm_trans; [apply sort_by_perm|]. rewrite !app_assoc.
    eapply perm_trans; [apply Permutation_sym, Permutation_cons_append|]. apply perm_skip. rewrite <- app_assoc. exact P.
Qed.

Lemma swap_row_n (cols : list key) (r : row XR) : In ("n", "", "p1") cols -> In ("n", "", "p2") cols ->
  swap_row cols r ("n", "", "p1") = (if swap_flag r then r ("n", "", "p2") else r ("n", "", "p1")) /\
  swap_row cols r ("n", "", "p2") = (if swap_flag r then r ("n", "", "p1") else r ("n", "", "p2")).
Proof.
  intros I1 I2. apply mem_key_In in I1, I2. unfold swap_row. destruct (swap_flag r); [|auto].
  change (of_species "p1" ("n", "", "p1")) with true. change (of_species "p1" ("n", "", "p2")) with false. change (of_species "p2" ("n", "", "p2")) with true. cbv iota.
  unfold to_species. cbn [kM kC fst snd]. rewrite I1, I2. auto.
Qed.

(* ================================================================ C42 *)
(** Rows are changed by exchanging the two protons where the density of the second is larger, and not otherwise. *)
Theorem C42_rows_only_exchange_protons :
  forall d out, swap_protons d = Ok out -> same_columns d ->
  f_dt (s_table out) = f_dt d /\
  Permutation (f_cols (s_table out)) (f_cols d) /\
  s_flags out = map (fun zr => swap_flag (snd zr)) (f_rows d) /\
  Forall2 (fun zr zr' : Z * row XR => fst zr' = fst zr /\
             forall k, In k (f_cols d) ->
               snd zr' k = if swap_flag (snd zr) then exchange (snd zr) k else snd zr k)
          (f_rows d) (f_rows (s_table out)).
Proof.
  intros d out H SC. assert (H0 := H). apply swap_ok in H. destruct H as (_ & _ & HR & HF & HP & _).
  split. { revert H0. unfold swap_protons. repeat (destruct (negb _); [discriminate|]). intros H0. injection H0 as <-. reflexivity. }
  split; [exact HP|]. split; [exact HF|]. rewrite HR. clear HR HF HP H0 out.
  assert (G : forall r k, In k (f_cols d) -> swap_row (f_cols d) r k = if swap_flag r then exchange r k else r k).
  { intros r k Hk. unfold swap_row, exchange, other, of_species, to_species. destruct (swap_flag r); [|reflexivity].
    destruct k as [[m c] s]. cbn [kM kC kS fst snd].
    destruct (String.eqb s "p1") eqn:E1.
    - apply String.eqb_eq in E1. subst s. apply (proj1 (SC m c)) in Hk. apply mem_key_In in Hk. rewrite Hk. reflexivity.
    - destruct (String.eqb s "p2") eqn:E2; [|reflexivity].
      apply String.eqb_eq in E2. subst s. apply (proj2 (SC m c)) in Hk. apply mem_key_In in Hk. rewrite Hk. reflexivity. }
  induction (f_rows d) as [|[z r] l IH]; constructor; [|exact IH]. cbn [fst snd]. split; [reflexivity|]. apply G.
Qed.
Print Assumptions C42_rows_only_exchange_protons.

(** Afterwards the second proton never has the larger density. *)
Theorem C42_second_proton_not_denser :
  forall d out, swap_protons d = Ok out -> densities_ok d ->
  forall z r a b, In (z, r) (f_rows (s_table out)) -> n_of "p1" r = Fin a -> n_of "p2" r = Fin b -> b <= a.
Proof.
  intros d out H D z r a b Hin H1 H2. apply swap_ok in H. destruct H as (I1 & I2 & HR & _).
  rewrite HR in Hin. apply in_map_iff in Hin. destruct Hin as ([z0 r0] & E & Hin). injection E as <- <-. cbn [snd] in *.
  unfold n_of in H1, H2. destruct (swap_row_n _ r0 I1 I2) as [W1 W2]. rewrite W1 in H1. rewrite W2 in H2. clear W1 W2.
  pose proof (D z0 r0 "p1" Hin) as D1. pose proof (D z0 r0 "p2" Hin) as D2.
  destruct (swap_flag r0) eqn:F.
  - rewrite H1 in D2. rewrite H2 in D1. cbn in D1, D2.
    apply (flag_positive _ _ _ H2 H1 D1 D2) in F. lra.
  - rewrite H1 in D1. rewrite H2 in D2. cbn in D1, D2. destruct (Rlt_le_dec a b) as [L|L]; [|exact L].
    apply (flag_positive _ _ _ H1 H2 D1 D2) in L. congruence.
Qed.
Print Assumptions C42_second_proton_not_denser.

(** Running it on its own output exchanges nothing. *)
Theorem C42_second_run_changes_no_row :
  forall d out, swap_protons d = Ok out -> same_columns d -> densities_ok d ->
  exists out2, swap_protons (swapped_frame out) = Ok out2 /\ forallb negb (s_flags out2) = true /\
    Forall2 (fun zr zr' : Z * row XR => fst zr' = fst zr /\ forall k, k <> swap_label -> snd zr' k = snd zr k)
            (f_rows (s_table out)) (f_rows (s_table out2)).
Proof.
  intros d out H SC D. assert (H0 := H). apply swap_ok in H. destruct H as (I1 & I2 & HR & HF & _ & HP).
  pose proof (C42_second_proton_not_denser _ _ H0 D) as ORD.
  assert (C : forall k, k <> swap_label -> In k (s_labels out) <-> In k (f_cols d)).
  { intros k Hk. split; intros Q.
    - apply (Permutation_in _ HP) in Q. destruct Q as [Q|Q]; [congruence|exact Q].
    - apply (Permutation_in _ (Permutation_sym HP)). right. exact Q. }
  assert (HB : forall (f : key -> bool), f swap_label = true -> forallb f (s_labels out) = forallb f (f_cols d)).
  { intros f Hf. destruct (forallb f (f_cols d)) eqn:E.
    - apply forallb_forall. intros k Hk. apply (Permutation_in _ HP) in Hk. destruct Hk as [<-|Hk]; [exact Hf|].
      rewrite forallb_forall in E. apply E, Hk.
    - destruct (forallb f (s_labels out)) eqn:E2; [|reflexivity]. rewrite <- E. symmetry. apply forallb_forall.
      intros k Hk. rewrite forallb_forall in E2. apply E2. apply (Permutation_in _ (Permutation_sym HP)). right. exact Hk. }
  assert (HM : forall m c s, mem_key (m, c, s) (f_cols d) = true -> mem_key (m, c, s) (s_labels out) = true).
  { intros m c s Q. apply mem_key_In. apply mem_key_In in Q. apply (Permutation_in _ (Permutation_sym HP)). right. exact Q. }
  (* the flags of the second run are all false *)
  assert (NF : forall zr, In zr (f_rows (swapped_frame out)) -> swap_flag (snd zr) = false).
  { intros [z r'] Hin. unfold swapped_frame in Hin. cbn [f_rows] in Hin. apply in_map_iff in Hin.
    destruct Hin as ([[z0 r] b] & E & Hin). injection E as <- <-. cbn [fst snd].
    apply in_combine_l in Hin. unfold swap_flag.
    change (key_eqb ("n", "", "p2") swap_label) with false. change (key_eqb ("n", "", "p1") swap_label) with false. cbv iota.
    fold (swap_flag r). destruct (swap_flag r) eqn:F; [|reflexivity]. exfalso.
    assert (Hin2 := Hin). rewrite HR in Hin2. apply in_map_iff in Hin2. destruct Hin2 as ([z1 r1] & E1 & Hin1). injection E1 as <- <-.
    cbn [snd] in *.
    destruct (swap_row_n _ r1 I1 I2) as [W1 W2].
    assert (V12 : (swap_row (f_cols d) r1 ("n", "", "p1") = r1 ("n", "", "p1") /\ swap_row (f_cols d) r1 ("n", "", "p2") = r1 ("n", "", "p2") /\ swap_flag r1 = false) \/
                  (swap_row (f_cols d) r1 ("n", "", "p1") = r1 ("n", "", "p2") /\ swap_row (f_cols d) r1 ("n", "", "p2") = r1 ("n", "", "p1") /\ swap_flag r1 = true)).
    { rewrite W1, W2. destruct (swap_flag r1); [right|left]; auto. }
    pose proof (D z1 r1 "p1" Hin1) as D1. pose proof (D z1 r1 "p2" Hin1) as D2.
    unfold swap_flag, agtb in F. rewrite fin_ofZ in F.
    destruct V12 as [(A1 & A2 & FF)|(A1 & A2 & FF)].
    - rewrite A1, A2 in F. unfold swap_flag, agtb in FF. rewrite fin_ofZ in FF. congruence.
    - rewrite A1, A2 in F. unfold swap_flag, agtb in FF. rewrite fin_ofZ in FF.
      clear b. destruct (r1 ("n", "", "p1")) as [a| | |] eqn:N1, (r1 ("n", "", "p2")) as [b| | |] eqn:N2; cbn in D1, D2; try contradiction;
        try discriminate F; try discriminate FF.
      + assert (L1 : a < b).
        { apply (flag_positive r1 a b N1 N2 D1 D2). unfold swap_flag, agtb. rewrite N1, N2, fin_ofZ. exact FF. }
        assert (L2 : b < a).
        { apply (flag_positive (fun k => if key_eqb k ("n", "", "p1") then Fin b else Fin a) b a); try reflexivity; try assumption.
          unfold swap_flag, agtb. rewrite fin_ofZ.
          change (key_eqb ("n", "", "p2") ("n", "", "p1")) with false. change (key_eqb ("n", "", "p1") ("n", "", "p1")) with true. exact F. }
        lra.
      + change ((Fin a / PInf)%num) with (Fin 0) in F. rewrite fin_ltb in F. apply Rltb_true in F. lra.
      + change ((Fin b / PInf)%num) with (Fin 0) in FF. rewrite fin_ltb in FF. apply Rltb_true in FF. lra. }
  (* the second run succeeds *)
  assert (OK2 : exists out2, swap_protons (swapped_frame out) = Ok out2 /\
            s_flags out2 = map (fun zr => swap_flag (snd zr)) (f_rows (swapped_frame out)) /\
            f_rows (s_table out2) = map (fun zr => (fst zr, swap_row (s_labels out) (snd zr))) (f_rows (swapped_frame out))).
  { revert H0. unfold swap_protons at 1. intros H0.
    destruct (has_label kS "p1" (f_cols d)) eqn:L1; [|discriminate]. destruct (has_label kS "p2" (f_cols d)) eqn:L2; [|discriminate].
    cbn [negb] in H0. destruct (forallb _ ["p1"; "p2"]) eqn:FB; [|discriminate]. clear H0.
    unfold swap_protons. change (f_cols (swapped_frame out)) with (s_labels out).
    assert (X : forall s, has_label kS s (f_cols d) = true -> has_label kS s (s_labels out) = true).
    { intros s Q. unfold has_label in *. apply existsb_exists in Q. destruct Q as (k & Hk & Q). apply existsb_exists.
      exists k. split; [|exact Q]. apply (Permutation_in _ (Permutation_sym HP)). right. exact Hk. }
    rewrite (X _ L1), (X _ L2). cbn [negb].
    assert (FB2 : forallb (fun s => mem_key ("n", "", s) (s_labels out) &&
        forallb (fun k => negb (of_species s k && String.eqb (kM k) "n") || String.eqb (kC k) "") (s_labels out)) ["p1"; "p2"] = true).
    { cbn [forallb] in *. apply andb_prop in FB. destruct FB as [B1 B2]. rewrite andb_true_r in B2. apply andb_prop in B1, B2. destruct B1 as [B1 B1'].
      destruct B2 as [B2 B2']. rewrite (HM _ _ _ B1), (HM _ _ _ B2).
      rewrite !HB by reflexivity. rewrite B1', B2'. reflexivity. }
    rewrite FB2. cbn [negb]. eexists. split; [reflexivity|]. split; reflexivity. }
  destruct OK2 as (out2 & O1 & O2 & O3). exists out2. split; [exact O1|]. split.
  - rewrite O2. apply forallb_forall. intros b Hb. apply in_map_iff in Hb. destruct Hb as (zr & <- & Hz). rewrite (NF _ Hz). reflexivity.
  - rewrite O3.
    assert (G : forall l : list (Z * row XR * bool), (forall x, In x l -> swap_flag (snd (fst x)) = false) ->
       Forall2 (fun zr zr' : Z * row XR => fst zr' = fst zr /\ forall k, k <> swap_label -> snd zr' k = snd zr k)
         (map fst l) (map (fun zr => (fst zr, swap_row (s_labels out) (snd zr)))
            (map (fun zrb : Z * row XR * bool => (fst (fst zrb),
                                  fun k => if key_eqb k swap_label then (if snd zrb : bool then aofZ 1 else aofZ 0)
                                           else snd (fst zrb) k)) l))).
    { induction l as [|[[z r] b] l IH]; intros Hl; cbn [map]; constructor.
      - cbn [fst snd]. split; [reflexivity|]. intros k Hk. unfold swap_row.
        assert (SF : swap_flag (fun k0 => if key_eqb k0 swap_label then (if b then aofZ 1 else aofZ 0) else r k0) = swap_flag r).
        { unfold swap_flag. change (key_eqb ("n", "", "p2") swap_label) with false. change (key_eqb ("n", "", "p1") swap_label) with false. reflexivity. }
        rewrite SF. pose proof (Hl (z, r, b) (or_introl eq_refl)) as Q. cbn [fst snd] in Q. rewrite Q.
        destruct (key_eqb k swap_label) eqn:E; [apply key_eqb_eq in E; congruence|reflexivity].
      - apply IH. intros x Hx. apply Hl. right. exact Hx. }
    specialize (G (combine (f_rows (s_table out)) (s_flags out))).
    assert (CF : map fst (combine (f_rows (s_table out)) (s_flags out)) = f_rows (s_table out)).
    { rewrite HR, HF. clear. induction (f_rows d) as [|x l IH]; [reflexivity|]. cbn. rewrite IH. reflexivity. }
    rewrite CF in G. apply G. intros [[z r] b] Hx. cbn [fst snd].
    assert (Hq : In (z, fun k => if key_eqb k swap_label then (if b then aofZ 1 else aofZ 0) else r k) (f_rows (swapped_frame out))).
    { unfold swapped_frame. cbn [f_rows]. apply in_map_iff. exists (z, r, b). split; [reflexivity|exact Hx]. }
    apply NF in Hq. cbn [snd] in Hq. unfold swap_flag in *.
    change (key_eqb ("n", "", "p2") swap_label) with false in Hq. change (key_eqb ("n", "", "p1") swap_label) with false in Hq. exact Hq.
Qed.
Print Assumptions C42_second_run_changes_no_row.

(** But the whole table is not what one run gives: the record of exchanges is added a second time. *)
Definition swap_ex : frame XR := {|
  f_cols := [("n", "", "p1"); ("n", "", "p2"); ("b", "x", "")]; f_dt := true;
  f_rows := [(0%Z, fun k => if key_eqb k ("n", "", "p2") then Fin 2 else Fin 1)] |}.
Theorem C42_idempotent_refuted :
  exists d out out2, swap_protons d = Ok out /\ same_columns d /\ densities_ok d /\ NoDup (f_cols d) /\
    swap_protons (swapped_frame out) = Ok out2 /\ s_labels out2 <> s_labels out /\ ~ NoDup (s_labels out2).
Proof.
  exists swap_ex. eexists. eexists. split; [reflexivity|].
  split. { intros m c. cbn [swap_ex f_cols In]. split; intros H;
           repeat (destruct H as [H|H]; [try discriminate H; injection H as <- <-; auto 6|]); destruct H. }
  split. { intros z r s H. cbn [swap_ex f_rows In] in H. destruct H as [H|[]]. injection H as <- <-.
           cbn beta. destruct (key_eqb _ _); cbn; lra. }
  split. { repeat constructor; cbn; intuition discriminate. }
  split; [reflexivity|]. cbn [s_labels].
  match goal with |- ?a <> ?b /\ _ => let x := eval vm_compute in a in let y := eval vm_compute in b in change a with x; change b with y end.
  split; [discriminate|]. intros H. repeat (apply NoDup_cons_iff in H; destruct H as [? H]).
  match goal with N : ~ In ("swapped_protons", "", "") _ |- _ => apply N; left; reflexivity end.
Qed.
Print Assumptions C42_idempotent_refuted.
(** A measurement only one proton has is lost where the protons are exchanged. *)
Theorem C42_unequal_columns_lose_data_refuted :
  exists d out z r z' r' k a, swap_protons d = Ok out /\ In k (f_cols d) /\ In (z, r) (f_rows d) /\ r k = Fin a /\
    f_rows (s_table out) = [(z', r')] /\ f_rows d = [(z, r)] /\ forall k', In k' (f_cols (s_table out)) -> kM k' = kM k -> r' k' = NaN.
Proof.
  exists {| f_cols := [("n", "", "p1"); ("n", "", "p2"); ("v", "x", "p1")]; f_dt := true;
            f_rows := [(0%Z, fun k => if key_eqb k ("n", "", "p2") then Fin 2 else Fin 1)] |}.
  eexists. exists 0%Z. eexists. exists 0%Z. eexists. exists ("v", "x", "p1"), 1.
  split; [reflexivity|]. cbn [f_cols f_rows]. split; [right; right; left; reflexivity|]. split; [left; reflexivity|].
  split; [reflexivity|]. split; [reflexivity|]. split; [reflexivity|].
  intros k' Hk' HM. apply sort_by_In in Hk'. cbn in Hk'.
  repeat (destruct Hk' as [<-|Hk']; [try discriminate HM|]); [|destruct Hk'].
  unfold swap_row. cbn [snd fst].
  assert (F : swap_flag (fun k : key => if key_eqb k ("n", "", "p2") then Fin 2 else Fin 1) = true).
  { apply (flag_positive _ 1 2); try reflexivity; lra. }
  rewrite F. reflexivity.
Qed.
Print Assumptions C42_unequal_columns_lose_data_refuted.
Example C42_ex : exists out, swap_protons swap_ex = Ok out /\ s_flags out = [true].
Proof.
  eexists. split; [reflexivity|]. cbn [s_flags map swap_ex f_rows snd]. f_equal.
  apply (flag_positive _ 1 2); try reflexivity; lra.
Qed.

(* ================================================================ C93 *)
(** Mean and standard deviation of the log-normal with parameters m, s. *)
Theorem C93_lognormal_moments :
  forall m s, exists mu sigma, normal_mu (Fin m) (Fin s) = Fin mu /\ normal_sigma (Fin m) (Fin s) = Fin sigma /\
    0 < mu /\ 0 <= sigma /\ ln mu = m + s ^ 2 / 2 /\ sigma ^ 2 = mu ^ 2 * (exp (s ^ 2) - 1) /\
    (sigma = 0 <-> s = 0).
Proof.
  intros m s. unfold normal_mu, normal_sigma. rewrite !fin_sq, !fin_ofZ, fin_div, fin_mul, !fin_add by lra.
  assert (X : forall a, texp (Fin a) = Fin (exp a)) by reflexivity. rewrite !X. rewrite fin_sub, fin_mul.
  assert (P : 0 <= exp (s * s) - 1).
  { pose proof (exp_ineq1_le (s * s)). pose proof (Rle_0_sqr s). unfold Rsqr in *. lra. }
  assert (Q : 0 <= exp (s * s + 2 * m) * (exp (s * s) - 1)).
  { apply Rmult_le_pos; [left; apply exp_pos|exact P]. }
  rewrite fin_sqrt by exact Q. eexists. eexists. split; [reflexivity|]. split; [reflexivity|].
  split; [apply exp_pos|]. split; [apply sqrt_pos|]. split; [rewrite ln_exp; field|].
  assert (E : sqrt (exp (s * s + 2 * m) * (exp (s * s) - 1)) ^ 2 = exp (s * s + 2 * m) * (exp (s * s) - 1)).
  { rewrite <- Rsqr_pow2. apply Rsqr_sqrt, Q. }
  split.
  - rewrite E. replace (s ^ 2) with (s * s) by ring. f_equal. simpl. rewrite Rmult_1_r, <- exp_plus. f_equal. field.
  - split; intros H.
    + rewrite H in E. assert (E' : exp (s * s) - 1 = 0).
      { symmetry in E. replace (0 ^ 2) with 0 in E by ring. apply Rmult_integral in E. destruct E as [E|E]; [|exact E].
        pose proof (exp_pos (s * s + 2 * m)). lra. }
      assert (E2 : s * s = 0).
      { apply exp_inv. rewrite exp_0. lra. }
      apply Rmult_integral in E2. destruct E2; assumption.
    + subst s. replace (0 * 0) with 0 by ring. rewrite exp_0. replace (1 - 1) with 0 by ring. rewrite Rmult_0_r. apply sqrt_0.
Qed.
Print Assumptions C93_lognormal_moments.
