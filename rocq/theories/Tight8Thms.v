(** Theorems added after mutation runs (see seeded/LOG.jsonl). *)
From Coq Require Import List String Ascii Bool Arith Lia.
From Verif Require Import Py PyStr Repro ReproThms.
Import ListNotations.
Open Scope string_scope.
Open Scope list_scope.

(** print_info's line "WARNING: Uncommitted changes present!" appears exactly if a staged path is missing or different on disk,
    and never if no commit can be read. *)
Theorem C204_warning w p g : get_git_info w p = Ok g ->
  (forall r sha, readable w p r sha -> (warns g = true <-> exists q x, content (r_index r) q = Some x /\ content (r_work r) q <> Some x))
  /\ ((forall r sha, ~ readable w p r sha) -> warns g = false).
Proof.
  intros Hg. split.
  - intros r sha Hr. destruct (C204_dirty w p r sha Hr) as (g' & Eg & _ & Hf & Ht). assert (g' = g) by congruence. subst g'.
    rewrite <- Ht. unfold warns. destruct (g_dirty g) as [[|]|]; split; congruence.
  - intros Hno. destruct (C205_which_commit w p) as [Hp H].
    destruct (w_node w p) eqn:En; [| rewrite (Hp eq_refl) in Hg; discriminate |];
      (destruct H as (g' & E' & _ & Hu); [discriminate|]; assert (g' = g) by congruence; subst g'; destruct (Hu Hno) as (_ & _ & _ & Hd);
       unfold warns; rewrite Hd; reflexivity).
Qed.
(** The branch reported is the one checked out, and "HEAD" in a detached repository. *)
Theorem C205_branch w p r sha : readable w p r sha ->
  exists g, get_git_info w p = Ok g /\ (forall b, r_branch r = Some b -> g_branch g = b) /\ (r_branch r = None -> g_branch g = "HEAD").
Proof.
  intros Hr. rewrite (readable_info w p r sha Hr). eexists. split; [reflexivity|]. cbn [g_branch].
  split; [intros b ->; reflexivity|intros ->; reflexivity].
Qed.
Example C204_warning_ex : exists g, get_git_info (ex_world (acts [Delete "b.py"] ex_repo)) ["project"] = Ok g /\ warns g = true /\ g_branch g = "main".
Proof. eexists. repeat split. Qed.
