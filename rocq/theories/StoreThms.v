(** Theorems about saving and loading: C26, C27, C28, C89 (crash during save). *)
From Coq Require Import List String Ascii Bool Arith ZArith Sorted Permutation Lia Reals.
From Verif Require Import Py PyStr Sort Num Species SpeciesProofs Frame FrameProofs FrameThms Plasma Spacecraft Store StoreProofs.
Import ListNotations.
Open Scope string_scope.
Open Scope py_scope.

(* ---------------------------------------------------------------- specification *)
Section Spec.
  Context {T : Type} {A : Arith T}.
  (** The object held by the plasma was made by the Spacecraft constructor. *)
  Definition built_spacecraft (p : plasma T) : Prop :=
    forall sc, p_sc p = Some sc -> exists data name fr, make_spacecraft data name fr = Ok sc.
  (** The keys to pass to [load_from_file]: none for what the plasma does not have. *)
  Definition key_if {X} (o : option X) (k : string) : option string := match o with Some _ => Some k | None => None end.
  Definition in_range (start stop : option Z) (t : Z) : Prop :=
    (forall a, start = Some a -> (a <= t)%Z) /\ (forall b, stop = Some b -> (t <= b)%Z).
  (** [sub] consists of exactly the rows of [rows] with a time in the window, in the same order. *)
  Definition window_of (start stop : option Z) {X} (rows sub : list (Z * X)) : Prop :=
    exists keep : Z -> bool, (forall t, keep t = true <-> in_range start stop t) /\
      sub = filter (fun zr => keep (fst zr)) rows.
End Spec.

Lemma in_window_iff start stop t : in_window start stop t = true <-> in_range start stop t.
Proof.
  unfold in_window, in_range. rewrite andb_true_iff. destruct start as [a|], stop as [b|]; rewrite ?Z.leb_le; split.
  all: try (intros [H1 H2]; split; intros x Hx; [inversion Hx; subst; auto|inversion Hx; subst; auto]).
  all: try (intros [H1 H2]; split; auto; fail).
Qed.

(* ================================================================ C26 *)
(** Any plasma of any history, saved into any file (whatever it held) and loaded back with the same keys:
    the same species, columns, values (the scalar thermal speeds recomputed), spacecraft and auxiliary
    data. Every other key of the file is untouched. *)
Theorem C26_save_load_identity :
  forall (T : Type) (A : Arith T) (p : plasma T) (f : file T) dkey sckey akey,
  reachable p -> ~ In "" (p_species p) -> built_spacecraft p -> NoDup [dkey; sckey; akey] ->
  exists f', save p dkey sckey akey f = Ok f' /\
    (forall k, ~ In k [dkey; sckey; akey] -> h_get f' k = h_get f k) /\
    exists p',
      load_from_file f' [] dkey (key_if (p_sc p) sckey) (key_if (p_aux p) akey)
        (option_map sc_frame (p_sc p)) (option_map sc_name (p_sc p)) None None = Ok p' /\
      (forall s, In s (p_species p') <-> In s (p_species p)) /\
      f_cols (p_data p') = f_cols (p_data p) /\
      rows_agree (f_cols (p_data p)) (f_rows (p_data p)) (f_rows (p_data p')) /\
      p_sc p' = p_sc p /\ p_aux p' = p_aux p.
Proof.
  intros T A p f dkey sckey akey R NE HB ND. pose proof (reachable_wf p R) as W.
  destruct (save_ok p dkey sckey akey f W) as [f' HS]. exists f'. split; [exact HS|].
  split. { intros k Hk. exact (proj2 (proj2 (proj2 (save_get p dkey sckey akey f f' ND HS))) k Hk). }
  destruct (reload p f f' dkey sckey akey [] None None W NE HB ND HS) as (p' & HL & H1 & H2 & H3 & H4 & H5); auto.
  { destruct (f_rows (p_data p)) as [|[z r] l] eqn:E; [destruct (wf_complete _ W) as [X _ _ _]; contradiction|].
    exists z. unfold f_index. rewrite E. split; [left; reflexivity|reflexivity]. }
  exists p'. unfold key_if.
  destruct (p_sc p) as [sc|], (p_aux p) as [a|]; cbn [option_map] in *; repeat split; auto.
  all: try (apply H1; assumption).
  all: rewrite H4; unfold sc_windowed, windowed; destruct sc; reflexivity.
Qed.
Print Assumptions C26_save_load_identity.

(** Loading with the species named gives the same plasma. *)
Theorem C26_load_named_species :
  forall (T : Type) (A : Arith T) (p : plasma T) (f f' : file T) sp dkey sckey akey,
  reachable p -> ~ In "" (p_species p) -> built_spacecraft p -> NoDup [dkey; sckey; akey] ->
  save p dkey sckey akey f = Ok f' -> Permutation sp (p_species p) ->
  exists p',
    load_from_file f' sp dkey (key_if (p_sc p) sckey) (key_if (p_aux p) akey)
      (option_map sc_frame (p_sc p)) (option_map sc_name (p_sc p)) None None = Ok p' /\
    (forall s, In s (p_species p') <-> In s (p_species p)) /\
    f_cols (p_data p') = f_cols (p_data p) /\
    rows_agree (f_cols (p_data p)) (f_rows (p_data p)) (f_rows (p_data p')).
Proof.
  intros T A p f f' sp dkey sckey akey R NE HB ND HS HP. pose proof (reachable_wf p R) as W.
  destruct (reload p f f' dkey sckey akey sp None None W NE HB ND HS) as (p' & HL & H1 & H2 & H3 & H4 & H5); auto.
  { right. intros s. split; intros H; eapply Permutation_in; try exact H; [exact HP|symmetry; exact HP]. }
  { destruct (f_rows (p_data p)) as [|[z r] l] eqn:E; [destruct (wf_complete _ W) as [X _ _ _]; contradiction|].
    exists z. unfold f_index. rewrite E. split; [left; reflexivity|reflexivity]. }
  exists p'. unfold key_if. destruct (p_sc p), (p_aux p); cbn [option_map] in *; repeat split; auto; apply H1; assumption.
Qed.
Print Assumptions C26_load_named_species.

(** But loading with the default keys fails for a plasma that had no spacecraft or auxiliary data, in a
    new file: the defaults of [save] and [load_from_file] do not fit together. *)
Theorem C26_default_keys_refuted :
  exists (p : plasma XR) f', reachable p /\ ~ In "" (p_species p) /\
    save p "FC" "SC" "FC_AUX" [] = Ok f' /\
    forall n fr, load_from_file f' [] "FC" (Some "SC") (Some "FC_AUX") fr n None None = Err KeyError.
Proof.
  destruct (make_plasma ex_frame ["p1"; "a"] None None) as [p|e] eqn:H; [|vm_compute in H; discriminate].
  assert (HC : forall s, In s ["p1"; "a"] -> has_char comma s = false) by (intros s [<-|[<-|[]]]; reflexivity).
  destruct (make_plasma_inv _ _ _ _ _ HC H) as (W & _ & S & _).
  destruct (save_ok p "FC" "SC" "FC_AUX" [] W) as [f' HS]. exists p, f'.
  split. { exists ex_frame, ["p1"; "a"], None, None, p, []. auto. }
  split. { rewrite S. intros [X|[X|[]]]; discriminate. }
  split; [exact HS|]. intros n fr.
  vm_compute in H. injection H as <-. vm_compute in HS. injection HS as <-. vm_compute. reflexivity.
Qed.
Print Assumptions C26_default_keys_refuted.

(** A concrete plasma with spacecraft and auxiliary data meets the hypotheses. *)
Definition ex_sc_frame : frame XR :=
  mkFrame [("pos", "y", ""); ("pos", "x", ""); ("pos", "z", ""); ("carr", "lat", ""); ("carr", "lon", ""); ("oops", "", "")]
          true [(1%Z, fun _ => Fin 7); (2%Z, fun _ => Fin 8)].
Example C26_ex : exists (p : plasma XR) sc, reachable p /\ p_sc p = Some sc /\ p_aux p = Some ex_aux /\
  ~ In "" (p_species p) /\ built_spacecraft p /\ sc_name sc = "WIND" /\ sc_frame sc = "GSE" /\
  NoDup ["FC"; "SC"; "FC_AUX"].
Proof.
  destruct (make_spacecraft ex_sc_frame "wind" "gse") as [sc|e] eqn:HS; [|vm_compute in HS; discriminate].
  assert (HC : forall s, In s ["p1"; "a"] -> has_char comma s = false) by (intros s [<-|[<-|[]]]; reflexivity).
  destruct (make_plasma ex_frame ["p1"; "a"] (Some sc) (Some ex_aux)) as [p|e] eqn:H.
  2:{ vm_compute in HS. injection HS as <-. vm_compute in H. discriminate. }
  destruct (make_plasma_inv _ _ _ _ _ HC H) as (_ & _ & S & SC & AX).
  exists p, sc. split. { exists ex_frame, ["p1"; "a"], (Some sc), (Some ex_aux), p, []. auto. }
  split; [exact SC|]. split; [exact AX|].
  split. { rewrite S. intros [X|[X|[]]]; discriminate. }
  split. { intros sc' E. rewrite SC in E. injection E as <-. eauto. }
  vm_compute in HS. injection HS as <-. repeat split.
  repeat constructor; simpl; intuition discriminate.
Qed.

(* ================================================================ C27 *)
(** What the file holds under a key is what the last save that wrote this key put there. *)
Theorem C27_file_holds_last_save_partial :
  forall (T : Type) (A : Arith T) (p : plasma T) (f f' : file T) dkey sckey akey,
  NoDup [dkey; sckey; akey] -> save p dkey sckey akey f = Ok f' ->
  (exists d, h_get f' dkey = Some d /\ f_rows d = f_rows (p_data p)) /\
  (forall sc, p_sc p = Some sc -> h_get f' sckey = Some (sc_data sc)) /\
  (forall a, p_aux p = Some a -> h_get f' akey = Some a) /\
  (p_sc p = None -> h_get f' sckey = h_get f sckey) /\
  (p_aux p = None -> h_get f' akey = h_get f akey).
Proof.
  intros T A p f f' dkey sckey akey ND HS. destruct (save_get p dkey sckey akey f f' ND HS) as (G1 & G2 & G3 & _).
  split; [exists (noscalar (p_data p)); auto|].
  repeat split.
  - intros sc E. rewrite E in G2. exact G2.
  - intros a E. rewrite E in G3. exact G3.
  - intros E. rewrite E in G2. exact G2.
  - intros E. rewrite E in G3. exact G3.
Qed.
Print Assumptions C27_file_holds_last_save_partial.

(** So the claim fails: a plasma saved without auxiliary data comes back with those of an earlier one. *)
Theorem C27_stale_data_refuted :
  exists (p q q' : plasma XR) f1 f2, reachable p /\ reachable q /\ p_aux q = None /\
    save p "FC" "SC" "FC_AUX" [] = Ok f1 /\ save q "FC" "SC" "FC_AUX" f1 = Ok f2 /\
    load_from_file f2 [] "FC" None (Some "FC_AUX") None None None None = Ok q' /\
    p_aux q' = p_aux p /\ p_aux p <> None.
Proof.
  assert (HC : forall s, In s ["p1"; "a"] -> has_char comma s = false) by (intros s [<-|[<-|[]]]; reflexivity).
  destruct (make_plasma ex_frame ["p1"; "a"] None (Some ex_aux)) as [p|e] eqn:H1; [|vm_compute in H1; discriminate].
  destruct (make_plasma ex_frame ["p1"; "a"] None None) as [q|e] eqn:H2; [|vm_compute in H2; discriminate].
  destruct (save p "FC" "SC" "FC_AUX" []) as [f1|e] eqn:H3.
  2:{ vm_compute in H1. injection H1 as <-. vm_compute in H3. discriminate. }
  destruct (save q "FC" "SC" "FC_AUX" f1) as [f2|e] eqn:H4.
  2:{ vm_compute in H2. injection H2 as <-. vm_compute in H4. discriminate. }
  assert (AP : p_aux p = Some ex_aux) by (destruct (make_plasma_inv _ _ _ _ _ HC H1) as (_ & _ & _ & _ & X); exact X).
  assert (AQ : p_aux q = None) by (destruct (make_plasma_inv _ _ _ _ _ HC H2) as (_ & _ & _ & _ & X); exact X).
  destruct (load_from_file f2 [] "FC" None (Some "FC_AUX") None None None None) as [q'|e] eqn:H5.
  - exists p, q, q', f1, f2.
    split. { exists ex_frame, ["p1"; "a"], None, (Some ex_aux), p, []. auto. }
    split. { exists ex_frame, ["p1"; "a"], None, None, q, []. auto. }
    split; [exact AQ|]. split; [exact H3|]. split; [exact H4|]. split; [exact H5|]. rewrite AP. split; [|discriminate].
    vm_compute in H1. injection H1 as <-. vm_compute in H2. injection H2 as <-.
    vm_compute in H3. injection H3 as <-. vm_compute in H4. injection H4 as <-.
    vm_compute in H5. injection H5 as <-. reflexivity.
  - exfalso. vm_compute in H1. injection H1 as <-. vm_compute in H2. injection H2 as <-.
    vm_compute in H3. injection H3 as <-. vm_compute in H4. injection H4 as <-. vm_compute in H5. discriminate.
Qed.
Print Assumptions C27_stale_data_refuted.

(* ================================================================ C28 *)
(** On an index without repetitions: a window containing a row loads exactly the rows in the window, in
    order, of data, spacecraft and auxiliary data alike; a window containing none is rejected. *)
Theorem C28_window_exact_partial :
  forall (T : Type) (A : Arith T) (p : plasma T) (f f' : file T) dkey sckey akey start stop,
  reachable p -> ~ In "" (p_species p) -> built_spacecraft p -> NoDup [dkey; sckey; akey] ->
  save p dkey sckey akey f = Ok f' -> Sorted Z.lt (f_index (p_data p)) ->
  (exists t, In t (f_index (p_data p)) /\ in_range start stop t) ->
  exists p' rows,
    load_from_file f' [] dkey (key_if (p_sc p) sckey) (key_if (p_aux p) akey)
      (option_map sc_frame (p_sc p)) (option_map sc_name (p_sc p)) start stop = Ok p' /\
    (forall s, In s (p_species p') <-> In s (p_species p)) /\
    f_cols (p_data p') = f_cols (p_data p) /\
    window_of start stop (f_rows (p_data p)) rows /\ rows_agree (f_cols (p_data p)) rows (f_rows (p_data p')) /\
    (forall sc, p_sc p = Some sc -> exists sc', p_sc p' = Some sc' /\ sc_name sc' = sc_name sc /\ sc_frame sc' = sc_frame sc /\
        f_cols (sc_data sc') = f_cols (sc_data sc) /\ window_of start stop (f_rows (sc_data sc)) (f_rows (sc_data sc'))) /\
    (forall a, p_aux p = Some a -> exists a', p_aux p' = Some a' /\ f_cols a' = f_cols a /\
        window_of start stop (f_rows a) (f_rows a')).
Proof.
  intros T A p f f' dkey sckey akey start stop R NE HB ND HS SO [t [Ht HT]]. pose proof (reachable_wf p R) as W.
  destruct (reload p f f' dkey sckey akey [] start stop W NE HB ND HS) as (p' & HL & H1 & H2 & H3 & H4 & H5); auto.
  { exists t. split; [exact Ht|]. apply in_window_iff, HT. }
  exists p', (f_rows (windowed start stop (p_data p))).
  split. { rewrite <- HL. unfold key_if. destruct (p_sc p), (p_aux p); reflexivity. }
  split; [exact H1|]. split; [exact H2|].
  assert (WO : forall d : frame T, window_of start stop (f_rows d) (f_rows (windowed start stop d))).
  { intros d. exists (in_window start stop). split; [apply in_window_iff|]. rewrite windowed_spec. reflexivity. }
  split; [apply WO|]. split; [exact H3|]. split.
  - intros sc E. rewrite E in H4. eexists. split; [exact H4|]. cbn [sc_windowed sc_name sc_frame sc_data].
    split; [reflexivity|]. split; [reflexivity|]. split; [rewrite windowed_spec; reflexivity|apply WO].
  - intros a E. rewrite E in H5. eexists. split; [exact H5|]. split; [rewrite windowed_spec; reflexivity|apply WO].
Qed.
Print Assumptions C28_window_exact_partial.

Theorem C28_empty_window_rejected :
  forall (T : Type) (A : Arith T) (p : plasma T) (f f' : file T) sp dkey sckey akey sk ak fr n start stop,
  reachable p -> ~ In "" (p_species p) -> NoDup [dkey; sckey; akey] -> save p dkey sckey akey f = Ok f' ->
  Sorted Z.le (f_index (p_data p)) -> (sp = [] \/ Permutation sp (p_species p)) ->
  (forall t, In t (f_index (p_data p)) -> ~ in_range start stop t) ->
  load_from_file f' sp dkey sk ak fr n start stop = Err ValueError.
Proof.
  intros T A p f f' sp dkey sckey akey sk ak fr n start stop R NE ND HS SO HSP HE. pose proof (reachable_wf p R) as W.
  destruct (save_get p dkey sckey akey f f' ND HS) as (G1 & _).
  unfold load_from_file, read_hdf. rewrite G1. cbn [bind].
  rewrite loc_slice_window by (right; exact SO). cbn [bind]. rewrite windowed_spec.
  set (d2 := {| f_cols := _; f_dt := _; f_rows := _ |}).
  assert (E : f_rows d2 = []).
  { unfold d2. cbn [f_rows noscalar f_select]. unfold f_index in HE.
    induction (f_rows (p_data p)) as [|[z r] l IH]; [reflexivity|]. cbn [filter fst].
    destruct (in_window start stop z) eqn:EW.
    - apply in_window_iff in EW. exfalso. exact (HE z (or_introl eq_refl) EW).
    - apply IH. intros t Ht. apply HE. right; exact Ht. }
  set (sp' := match sp with [] => _ | _ => _ end).
  assert (SP' : forall s, In s sp' <-> In s (p_species p)).
  { intros s. unfold sp'. destruct HSP as [->|HSP].
    - apply (default_species_In p _ _ s W NE).
    - destruct sp as [|s0 l].
      + apply Permutation_nil in HSP. destruct (wf_complete _ W) as [_ C2 _ _]. contradiction.
      + split; intros H; eapply Permutation_in; try exact H; [exact HSP|symmetry; exact HSP]. }
  unfold make_plasma.
  assert (E1 : clean_species_for_setting sp' = Ok (sort_str sp')).
  { apply clean_ok. repeat split; auto.
    - intros Es. destruct (wf_complete _ W) as [_ C2 _ _]. destruct (p_species p) as [|s l]; [contradiction|].
      assert (X : In s sp') by (apply SP'; left; reflexivity). rewrite Es in X. destruct X.
    - intros s Hs. apply (wf_plus _ W), SP', Hs. }
  rewrite E1. cbn [bind]. unfold plasma_set_data, f_empty. rewrite E. destruct (f_cols d2); reflexivity.
Qed.
Print Assumptions C28_empty_window_rejected.

(** With a repeated time stamp the windowed load of a valid file fails: [aux.loc[data.index]] multiplies
    the rows of that stamp. *)
Definition ex_dup_frame : frame XR := mkFrame ex_cols true [(1%Z, fun _ => Fin 3); (1%Z, fun _ => Fin 4); (2%Z, fun _ => Fin 5)].
Definition ex_dup_aux : frame XR :=
  mkFrame [("chisq", "", "")] true [(1%Z, fun _ => Fin 1); (1%Z, fun _ => Fin 2); (2%Z, fun _ => Fin 3)].
Theorem C28_repeated_times_refuted :
  exists (p : plasma XR) f', reachable p /\ Sorted Z.le (f_index (p_data p)) /\ save p "FC" "SC" "FC_AUX" [] = Ok f' /\
    (exists p', load_from_file f' [] "FC" None (Some "FC_AUX") None None None None = Ok p') /\
    load_from_file f' [] "FC" None (Some "FC_AUX") None None (Some 1%Z) (Some 2%Z) = Err AssertionError.
Proof.
  assert (HC : forall s, In s ["p1"; "a"] -> has_char comma s = false) by (intros s [<-|[<-|[]]]; reflexivity).
  destruct (make_plasma ex_dup_frame ["p1"; "a"] None (Some ex_dup_aux)) as [p|e] eqn:H; [|vm_compute in H; discriminate].
  destruct (make_plasma_inv _ _ _ _ _ HC H) as (W & ST & _).
  destruct (save_ok p "FC" "SC" "FC_AUX" [] W) as [f' HS]. exists p, f'.
  split. { exists ex_dup_frame, ["p1"; "a"], None, (Some ex_dup_aux), p, []. auto. }
  split. { rewrite (stored_index _ _ _ ST). unfold f_index, ex_dup_frame. cbn [f_rows map fst].
           repeat constructor; lia. }
  split; [exact HS|]. vm_compute in H. injection H as <-. vm_compute in HS. injection HS as <-. split.
  - eexists. vm_compute. reflexivity.
  - vm_compute. reflexivity.
Qed.
Print Assumptions C28_repeated_times_refuted.

(* ================================================================ C89 *)
(** A process that dies during [save], at any point between two writes: every table of the file is wholly
    the old or wholly the new one. *)
Theorem C89_crash_tables_old_or_new_partial :
  forall (T : Type) (A : Arith T) (p : plasma T) (f f' fc : file T) dkey sckey akey n k,
  NoDup [dkey; sckey; akey] -> save p dkey sckey akey f = Ok f' -> save_crash n p dkey sckey akey f = Ok fc ->
  h_get fc k = h_get f k \/ h_get fc k = h_get f' k.
Proof.
  intros T A p f f' fc dkey sckey akey n k ND HS HC.
  unfold save, save_crash in *. destruct (save_writes p dkey sckey akey) as [ws|e] eqn:E; [|discriminate].
  cbn [bind] in *. injection HS as <-. injection HC as <-.
  assert (NK : NoDup (map fst ws)).
  { unfold save_writes in E. destruct (drop_scalar (p_data p)); [|discriminate]. cbn [bind] in E. injection E as <-.
    inversion ND as [|? ? N1 ND']; subst. inversion ND' as [|? ? N2 _]; subst.
    destruct (p_sc p), (p_aux p); simpl in *; repeat constructor; simpl; intuition. }
  clear E. revert f n. induction ws as [|[k0 d0] ws IH]; intros f n.
  - left. rewrite firstn_nil. reflexivity.
  - destruct n as [|n]; [left; reflexivity|]. cbn [firstn write_all fold_left fst snd].
    cbn [map fst] in NK. inversion NK as [|? ? N1 N2]; subst.
    fold (write_all (firstn n ws) (h_put k0 d0 f)). fold (write_all ws (h_put k0 d0 f)).
    destruct (IH N2 (h_put k0 d0 f) n) as [H|H]; [|right; exact H].
    destruct (String.eqb_spec k k0) as [->|NK0].
    + right.
      assert (G : forall (ws' : list (string * frame T)) f0, ~ In k0 (map fst ws') -> h_get (write_all ws' f0) k0 = h_get f0 k0).
      { induction ws' as [|[k1 d1] ws' IH']; intros f0 Hn; [reflexivity|]. cbn [write_all fold_left fst snd].
        fold (write_all ws' (h_put k1 d1 f0)). rewrite IH'; [|intros X; apply Hn; right; exact X].
        rewrite h_get_put. destruct (String.eqb_spec k0 k1); [subst; exfalso; apply Hn; left; reflexivity|reflexivity]. }
      rewrite (G ws); [|exact N1]. rewrite (G (firstn n ws)); [reflexivity|].
      intros X. apply N1. apply in_map_iff in X as [kd [Hk Hi]]. apply in_map_iff. exists kd. split; [exact Hk|].
      rewrite <- (firstn_skipn n ws). apply in_or_app. left; exact Hi.
    + left. rewrite H, h_get_put. destruct (String.eqb_spec k k0); [contradiction|reflexivity].
Qed.
Print Assumptions C89_crash_tables_old_or_new_partial.

(** But the file as a whole may be neither: after a crash, the new data load together with the auxiliary
    data of the earlier save, without an error. *)
Definition ex_aux2 : frame XR := mkFrame [("chisq", "", "")] true [(1%Z, fun _ => Fin 8); (2%Z, fun _ => Fin 9)].
Theorem C89_crash_mixes_saves_refuted :
  exists (p q q' : plasma XR) f1 fc, reachable p /\ reachable q /\ p_aux q = Some ex_aux2 /\
    save p "FC" "SC" "FC_AUX" [] = Ok f1 /\ save_crash 1 q "FC" "SC" "FC_AUX" f1 = Ok fc /\
    load_from_file fc [] "FC" None (Some "FC_AUX") None None None None = Ok q' /\
    p_aux q' = Some ex_aux /\ (exists z r, In (z, r) (f_rows ex_aux) /\ r ("chisq", "", "") = Fin 1).
Proof.
  assert (HC : forall s, In s ["p1"; "a"] -> has_char comma s = false) by (intros s [<-|[<-|[]]]; reflexivity).
  destruct (make_plasma ex_frame ["p1"; "a"] None (Some ex_aux)) as [p|e] eqn:H1; [|vm_compute in H1; discriminate].
  destruct (make_plasma ex_frame ["p1"; "a"] None (Some ex_aux2)) as [q|e] eqn:H2; [|vm_compute in H2; discriminate].
  assert (AQ : p_aux q = Some ex_aux2) by (destruct (make_plasma_inv _ _ _ _ _ HC H2) as (_ & _ & _ & _ & X); exact X).
  destruct (save p "FC" "SC" "FC_AUX" []) as [f1|e] eqn:H3.
  2:{ vm_compute in H1. injection H1 as <-. vm_compute in H3. discriminate. }
  destruct (save_crash 1 q "FC" "SC" "FC_AUX" f1) as [fc|e] eqn:H4.
  2:{ vm_compute in H2. injection H2 as <-. vm_compute in H4. discriminate. }
  destruct (load_from_file fc [] "FC" None (Some "FC_AUX") None None None None) as [q'|e] eqn:H5.
  - exists p, q, q', f1, fc.
    split. { exists ex_frame, ["p1"; "a"], None, (Some ex_aux), p, []. auto. }
    split. { exists ex_frame, ["p1"; "a"], None, (Some ex_aux2), q, []. auto. }
    split; [exact AQ|]. split; [exact H3|]. split; [exact H4|]. split; [exact H5|]. split.
    + vm_compute in H1. injection H1 as <-. vm_compute in H2. injection H2 as <-.
      vm_compute in H3. injection H3 as <-. vm_compute in H4. injection H4 as <-.
      vm_compute in H5. injection H5 as <-. reflexivity.
    + exists 1%Z, (fun _ => Fin 1). split; [left; reflexivity|reflexivity].
  - exfalso. vm_compute in H1. injection H1 as <-. vm_compute in H2. injection H2 as <-.
    vm_compute in H3. injection H3 as <-. vm_compute in H4. injection H4 as <-. vm_compute in H5. discriminate.
Qed.
Print Assumptions C89_crash_mixes_saves_refuted.
