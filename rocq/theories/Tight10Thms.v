(** Theorems added after mutation runs (see seeded/LOG.jsonl), tenth group. *)
From Coq Require Import List String Ascii Bool Arith ZArith Reals.
From Verif Require Import Py PyStr Sort Num Species SpeciesProofs Frame FrameProofs FrameProofs2 Plasma FrameThms.
Import ListNotations.
Open Scope list_scope.
Open Scope string_scope.

Definition plasma_column (sp : list string) (k : key) : Prop :=
  In (kM k) ["b"; "n"; "v"; "w"] /\ In (kC k) [""; "x"; "y"; "z"; "per"; "par"] /\ (In (kS k) sp \/ kS k = "").
(** A magnetic field that belongs to a species is not the plasma's: KeyError. *)
Theorem C06_field_of_a_species :
  forall (T : Type) (A : Arith T) (data : frame T) sp sc aux, sp <> [] ->
  (forall s, In s sp -> has_char plus s = false) -> f_rows data <> [] ->
  (forall m, In m ["b"; "n"; "v"; "w"] -> exists k, In k (f_cols data) /\ kM k = m) ->
  (forall c, In c [""; "x"; "y"; "z"; "per"; "par"] -> exists k, In k (f_cols data) /\ kC k = c) ->
  (forall s, In s sp \/ s = "" -> exists k, In k (f_cols data) /\ kS k = s) ->
  (exists k, In k (f_cols data) /\ plasma_column sp k /\ kM k = "w") -> (exists k, In k (f_cols data) /\ plasma_column sp k /\ kC k = "par") ->
  (exists k, In k (f_cols data) /\ plasma_column sp k /\ kC k = "per") -> (exists k, In k (f_cols data) /\ plasma_column sp k /\ kM k = "b") ->
  (forall k, In k (f_cols data) -> kM k = "b" -> kS k <> "") ->
  make_plasma data sp sc aux = Err KeyError.
Proof.
  intros T A data sp sc aux HN HP HR HM HC HS W PA PE B NB. unfold make_plasma.
  assert (E1 : clean_species_for_setting sp = Ok (sort_str sp)) by (apply clean_ok; auto).
  rewrite E1. cbn [bind]. unfold plasma_set_data.
  assert (E0 : f_empty data = false).
  { unfold f_empty. destruct B as (k & K & _). destruct (f_cols data); [contradiction|]. destruct (f_rows data); [contradiction|reflexivity]. }
  rewrite E0.
  assert (ES : slice_ok (sort_str sp) (f_cols data) = true).
  { unfold slice_ok. rewrite !andb_true_iff, !forallb_forall. split; [split|]; intros x Hx; apply has_label_In.
    - apply HM, Hx.
    - apply HC, Hx.
    - apply HS. apply in_app_or in Hx. rewrite sort_In in Hx. destruct Hx as [Hx|[<-|[]]]; [left; exact Hx|right; reflexivity]. }
  rewrite ES. cbn [negb]. set (kept := nodup_key _).
  assert (KI : forall k, In k kept <-> In k (f_cols data) /\ plasma_column sp k).
  { intros k. unfold kept. rewrite nodup_key_In. 
    assert (P : forall l, In k (sort_by key_leb l) <-> In k l) by (intros l; split; apply Permutation.Permutation_in; [|apply Permutation.Permutation_sym]; apply sort_by_perm).
    rewrite P, filter_In. unfold in_slice, plasma_column. rewrite !andb_true_iff, !mem_str_In, in_app_iff, sort_In. cbn [In]. split.
    - intros (H1 & (H2 & H3) & H4). split; [exact H1|]. split; [exact H2|]. split; [exact H3|]. destruct H4 as [H4|[H4|[]]]; [left; exact H4|right; symmetry; exact H4].
    - intros (H1 & H2 & H3 & H4). split; [exact H1|]. split; [split; assumption|]. destruct H4 as [H4|H4]; [left; exact H4|right; left; symmetry; exact H4]. }
  assert (L : forall get x, (exists k, In k (f_cols data) /\ plasma_column sp k /\ get k = x) -> has_label get x kept = true).
  { intros get x (k & K1 & K2 & K3). apply has_label_In. exists k. split; [apply KI; split; assumption|exact K3]. }
  rewrite (L kM "w" W), (L kC "par" PA), (L kC "per" PE), (L kM "b" B). cbn [andb negb]. cbv zeta.
  replace (existsb _ kept) with false; [reflexivity|]. symmetry. apply not_true_iff_false. rewrite existsb_exists. intros (k & K1 & K2).
  apply KI in K1. apply andb_prop in K2. destruct K2 as [K2 K3]. apply String.eqb_eq in K2, K3. exact (NB k (proj1 K1) K2 K3).
Qed.
Example C06_field_ex : make_plasma (mkFrame [("b","x","a"); ("b","y","a"); ("b","z","a"); ("n","","a"); ("t","","") ; ("v","x","a"); ("w","par","a"); ("w","per","a")] true [(1%Z, fun _ : key => Fin 1)]) ["a"] None None = Err KeyError.
Proof. vm_compute. reflexivity. Qed.
