(** Theorems added after mutation runs (see seeded/LOG.jsonl), twelfth group. *)
From Coq Require Import List String Ascii Bool Arith ZArith Reals.
From Verif Require Import Py PyStr Sort Num Species SpeciesProofs Frame FrameProofs FrameProofs2 Plasma FrameThms Tight10Thms.
From Verif Require Import FitCore FitFuncs FitPlot FitSession FitSessionThms.
Import ListNotations.
Open Scope list_scope.
Open Scope string_scope.

(* ---------------------------------------------------------------- C06 *)
(** A table in which every label occurs, but no thermal speed of one of the plasma's species: KeyError. *)
Theorem C06_no_thermal_speed :
  forall (T : Type) (A : Arith T) (data : frame T) sp sc aux, sp <> [] ->
  (forall s, In s sp -> has_char plus s = false) ->
  (forall k, In k (f_cols data) -> plasma_column sp k -> kM k <> "w") \/
  (forall k, In k (f_cols data) -> plasma_column sp k -> kC k <> "par") \/
  (forall k, In k (f_cols data) -> plasma_column sp k -> kC k <> "per") ->
  f_rows data <> [] -> f_cols data <> [] ->
  make_plasma data sp sc aux = Err KeyError.
Proof.
  intros T A data sp sc aux HN HP NO HR HK. unfold make_plasma.
  assert (E1 : clean_species_for_setting sp = Ok (sort_str sp)) by (apply clean_ok; auto).
  rewrite E1. cbn [bind]. unfold plasma_set_data.
  assert (E0 : f_empty data = false).
  { unfold f_empty. destruct (f_cols data); [contradiction|]. destruct (f_rows data); [contradiction|reflexivity]. }
  rewrite E0. destruct (slice_ok _ _); [cbn [negb]|reflexivity]. set (kept := nodup_key _).
  assert (KI : forall k, In k kept -> In k (f_cols data) /\ plasma_column sp k).
  { intros k. unfold kept. rewrite nodup_key_In.
    assert (P : forall l, In k (sort_by key_leb l) <-> In k l) by (intros l; split; apply Permutation.Permutation_in; [|apply Permutation.Permutation_sym]; apply sort_by_perm).
    rewrite P, filter_In. unfold in_slice, plasma_column. rewrite !andb_true_iff, !mem_str_In, in_app_iff, sort_In. cbn [In].
    intros (H1 & (H2 & H3) & H4). split; [exact H1|]. split; [exact H2|]. split; [exact H3|]. destruct H4 as [H4|[H4|[]]]; [left; exact H4|right; symmetry; exact H4]. }
  assert (L : forall get x, (forall k, In k (f_cols data) -> plasma_column sp k -> get k <> x) -> has_label get x kept = false).
  { intros get x H. apply not_true_iff_false. rewrite has_label_In. intros (k & K1 & K2). destruct (KI k K1) as [K3 K4]. exact (H k K3 K4 K2). }
  destruct NO as [H|[H|H]]; rewrite (L _ _ H); rewrite ?andb_false_r; reflexivity.
Qed.
Print Assumptions C06_no_thermal_speed.
Example C06_speed_ex : make_plasma (mkFrame [("b","x",""); ("b","y",""); ("b","z",""); ("n","","a"); ("v","x","a"); ("w","par","p1"); ("w","per","p1")] true [(1%Z, fun _ : key => Fin 1)]) ["a"] None None = Err KeyError.
Proof. vm_compute. reflexivity. Qed.

(* ---------------------------------------------------------------- C217 *)
(** Before any fit the object has no parameters, tables, TeX info or plotter: AttributeError. There is no information
    on the initial guess either; asking for it never fails with AttributeError, and other failures of the guess show. *)
Theorem C217_before_any_fit : forall (c : ffclass (T := XR)) u,
  let o := new_session c u in
  parameters o = Err AttributeError /\ combined_table o = Err AttributeError /\
  build_tex o = Err AttributeError /\ build_plot o = Err AttributeError /\
  (forall p, c_p0 c (u_used u) = Ok p -> initial_guess_info o = Ok None) /\
  (c_p0 c (u_used u) = Err AttributeError -> initial_guess_info o = Ok None) /\
  (forall e, e <> AttributeError -> c_p0 c (u_used u) = Err e -> initial_guess_info o = Err e).
Proof.
  intros c u o. repeat split; try reflexivity.
  - intros p H. unfold initial_guess_info. cbn [o new_session f_class f_obs f_bounds]. rewrite H. destruct p; reflexivity.
  - intros H. unfold initial_guess_info. cbn [o new_session f_class f_obs f_bounds]. rewrite H. reflexivity.
  - intros e N H. unfold initial_guess_info. cbn [o new_session f_class f_obs f_bounds]. rewrite H. destruct e; congruence.
Qed.
Print Assumptions C217_before_any_fit.
(** ... and that is so after a fit too: a class that has no initial guess reports none. *)
Theorem C217_guess_unavailable : forall (o : session (T := XR)),
  c_p0 (f_class o) (u_used (f_obs o)) = Err AttributeError -> initial_guess_info o = Ok None.
Proof. intros o H. unfold initial_guess_info. rewrite H. reflexivity. Qed.
Print Assumptions C217_guess_unavailable.
Example C217_before_ex : initial_guess_info (new_session PowerLaw ex_used) = Ok None /\ build_plot (new_session PowerLaw ex_used) = Err AttributeError.
Proof. split; [|reflexivity]. destruct (C217_before_any_fit PowerLaw ex_used) as (_ & _ & _ & _ & H & _). eapply H. reflexivity. Qed.
