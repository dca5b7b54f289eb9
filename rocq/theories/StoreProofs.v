(** Proofs about saving and loading. *)
From Coq Require Import List String Ascii Bool Arith NArith ZArith Sorted Permutation Lia.
From Verif Require Import Py PyStr Sort Num Species SpeciesProofs Frame FrameProofs Plasma Spacecraft Store.
Import ListNotations.
Open Scope string_scope.
Open Scope py_scope.

Lemma upper_ascii_idem c : upper_ascii (upper_ascii c) = upper_ascii c.
Proof. destruct c as [[] [] [] [] [] [] [] []]; vm_compute; reflexivity. Qed.
Lemma upper_idem s : upper (upper s) = upper s.
Proof. induction s as [|c s IH]; simpl; [reflexivity|]. rewrite upper_ascii_idem, IH. reflexivity. Qed.

Lemma first_unique_In x l : forall seen, In x (first_unique seen l) <-> In x l /\ ~ In x seen.
Proof.
  induction l as [|y l IH]; intros seen; simpl; [tauto|].
  destruct (mem_str y seen) eqn:E.
  - apply mem_str_In in E. rewrite IH. split; [tauto|]. intros [[->|H] H']; [contradiction|auto].
  - apply mem_str_not in E. simpl. rewrite IH. simpl. split.
    + intros [->|[H1 H2]]; tauto.
    + intros [[->|H] H']; [auto|]. destruct (string_dec y x); [auto|]. right. split; [exact H|]. intros [?|?]; contradiction.
Qed.

Lemma flat_map_length_ge {X Y} (g : X -> list Y) l : (forall x, In x l -> g x <> []) ->
  (List.length l <= List.length (flat_map g l))%nat.
Proof.
  induction l as [|x l IH]; intros H; simpl; [lia|]. rewrite app_length.
  assert (g x <> []) by (apply H; left; reflexivity).
  assert ((List.length l <= List.length (flat_map g l))%nat) by (apply IH; intros; apply H; right; assumption).
  destruct (g x); [contradiction|]. simpl. lia.
Qed.
Lemma flat_map_single m cols cs :
  (forall c, In c cs -> In (m, c, "") cols) ->
  List.length (flat_map (fun c => filter (key_eqb (m, c, "")) cols) cs) = List.length cs ->
  flat_map (fun c => filter (key_eqb (m, c, "")) cols) cs = map (fun c => (m, c, "")) cs.
Proof.
  set (g := fun c => filter (key_eqb (m, c, "")) cols).
  assert (NE : forall c, In (m, c, "") cols -> g c <> []).
  { intros c H E. assert (X : In (m, c, "") (g c)) by (apply filter_In; split; [exact H|]; apply key_eqb_eq; reflexivity).
    rewrite E in X. destruct X. }
  induction cs as [|c cs IH]; intros H HL; [reflexivity|].
  cbn [flat_map map] in *. rewrite app_length in HL. cbn [List.length] in HL.
  assert (G : (List.length cs <= List.length (flat_map g cs))%nat).
  { apply flat_map_length_ge. intros x Hx. apply NE, H. right; exact Hx. }
  assert (N : g c <> []) by (apply NE, H; left; reflexivity).
  destruct (g c) as [|k [|k' l]] eqn:E; [contradiction| |cbn [List.length] in HL; lia].
  assert (k = (m, c, "")).
  { assert (X : In k (g c)) by (rewrite E; left; reflexivity). apply filter_In in X as [_ X].
    apply key_eqb_eq in X. symmetry; exact X. }
  subst k. cbn [app]. f_equal. apply IH; [intros; apply H; right; assumption|]. cbn [List.length] in HL. lia.
Qed.
Lemma xs_loc_eq m cs cols l : xs_loc m cs cols = Ok l -> l = map (fun c => (m, c, "")) cs.
Proof.
  unfold xs_loc. destruct (has_label kM m cols); [|discriminate]. cbn [negb].
  destruct (forallb _ cs) eqn:E; [|discriminate]. cbn [negb].
  destruct (Nat.eqb_spec (List.length (flat_map (fun c => filter (key_eqb (m, c, "")) cols) cs)) (List.length cs)) as [H|];
    [|discriminate].
  intros X. injection X as <-. apply flat_map_single; [|exact H].
  intros c Hc. rewrite forallb_forall in E. apply mem_key_In, E, Hc.
Qed.
Lemma xs_optional_eq m cs cols l : xs_optional m cs cols = Ok l -> l = [] \/ l = map (fun c => (m, c, "")) cs.
Proof.
  unfold xs_optional. destruct (xs_loc m cs cols) as [l'|e] eqn:E.
  - intros H. injection H as <-. right. exact (xs_loc_eq _ _ _ _ E).
  - destruct e; intros H; try discriminate. injection H as <-. left; reflexivity.
Qed.

Section P.
  Context {T : Type} {A : Arith T}.

  Lemma f_empty_cols (d : frame T) : f_cols d <> [] -> f_rows d <> [] -> f_empty d = false.
  Proof. unfold f_empty. destruct (f_cols d), (f_rows d); try contradiction; reflexivity. Qed.

  (** what a successful [Spacecraft.set_data] stored, and that storing (part of) it again changes nothing *)
  Lemma sc_set_data_again (data d : frame T) (rows' : list (Z * row T)) : sc_set_data data = Ok d -> rows' <> [] ->
    f_dt d = true /\ f_rows d = f_rows data /\
    sc_set_data {| f_cols := f_cols d; f_dt := true; f_rows := rows' |} =
      Ok {| f_cols := f_cols d; f_dt := true; f_rows := rows' |}.
  Proof.
    unfold sc_set_data at 1. destruct (f_empty data); [discriminate|]. intros H N.
    apply bind_ok in H as [pp [HP H]]. apply bind_ok in H as [v [HV H]]. apply bind_ok in H as [c [HC H]].
    destruct (f_dt data); [|discriminate]. injection H as <-. cbn [f_cols f_dt f_rows].
    apply xs_loc_eq in HP. apply xs_optional_eq in HV. apply xs_optional_eq in HC.
    split; [reflexivity|]. split; [reflexivity|]. unfold sc_set_data.
    rewrite f_empty_cols; cbn [f_cols f_rows].
    - subst pp. destruct HV as [->| ->], HC as [->| ->]; reflexivity.
    - subst pp. destruct HV as [->| ->], HC as [->| ->]; discriminate.
    - exact N.
  Qed.
  Lemma make_spacecraft_again (data : frame T) n fr sc (rows' : list (Z * row T)) : make_spacecraft data n fr = Ok sc -> rows' <> [] ->
    f_dt (sc_data sc) = true /\
    make_spacecraft {| f_cols := f_cols (sc_data sc); f_dt := true; f_rows := rows' |} (sc_name sc) (sc_frame sc) =
      Ok {| sc_data := {| f_cols := f_cols (sc_data sc); f_dt := true; f_rows := rows' |};
            sc_name := sc_name sc; sc_frame := sc_frame sc |}.
  Proof.
    unfold make_spacecraft. intros H N. apply bind_ok in H as [d0 [H0 H]]. apply bind_ok in H as [[f' n'] [HF H]].
    apply bind_ok in H as [d [HD H]]. injection H as <-. cbn [sc_data sc_name sc_frame fst snd].
    destruct (sc_set_data_again data d rows' HD N) as (E1 & _ & E2). split; [exact E1|].
    rewrite E2. cbn [bind].
    unfold set_frame_name in HF |- *.
    destruct (mem_str (upper fr) ["GSE"; "HCI"]) eqn:M1; [|discriminate].
    destruct (mem_str (upper n) ["WIND"; "PSP"]) eqn:M2; [|discriminate].
    cbn [negb] in HF. injection HF as <- <-. rewrite !upper_idem, M1, M2. reflexivity.
  Qed.

  (* ------------------------------------------------------------ the file *)
  Lemma h_get_filter (f : file T) k k' : k <> k' ->
    h_get (filter (fun kd => negb (String.eqb k (fst kd))) f) k' = h_get f k'.
  Proof.
    intros N. induction f as [|[k0 d] f IH]; [reflexivity|]. cbn [filter fst].
    destruct (String.eqb_spec k k0) as [->|N0]; cbn [negb].
    - cbn [h_get]. destruct (String.eqb_spec k' k0); [subst; contradiction|exact IH].
    - cbn [h_get]. rewrite IH. reflexivity.
  Qed.
  Lemma h_get_put k d (f : file T) k' : h_get (h_put k d f) k' = if String.eqb k' k then Some d else h_get f k'.
  Proof.
    unfold h_put. cbn [h_get]. destruct (String.eqb_spec k' k) as [->|N]; [reflexivity|].
    apply h_get_filter. congruence.
  Qed.
  Lemma save_ok (p : plasma T) dkey sckey akey f : wf p ->
    exists f', save p dkey sckey akey f = Ok f'.
  Proof.
    intros W. unfold save, save_writes, drop_scalar.
    assert (E : has_label kC "scalar" (f_cols (p_data p)) = true).
    { destruct (wf_stored _ W) as [new ST]. destruct (wf_complete _ W) as [_ HN HI _].
      destruct (p_species p) as [|s l] eqn:ES; [contradiction|].
      assert (C1 : In ("w", "par", s) (f_cols (p_data p))).
      { apply (HI s (or_introl eq_refl)). unfold ion_required. simpl. tauto. }
      apply has_label_In. exists ("w", "scalar", s). split; [|reflexivity].
      apply (st_cols _ _ _ ST). right. split; [split; reflexivity|]. exists "par". split; [auto|].
      apply (st_cols _ _ _ ST) in C1 as [C1|[[_ C1] _]]; [exact C1|discriminate]. }
    rewrite E. cbn [bind]. eexists; reflexivity.
  Qed.
  Definition noscalar (d : frame T) : frame T := f_select (fun k => negb (String.eqb (kC k) "scalar")) d.
  Lemma save_get (p : plasma T) dkey sckey akey f f' : NoDup [dkey; sckey; akey] ->
    save p dkey sckey akey f = Ok f' ->
    h_get f' dkey = Some (noscalar (p_data p)) /\
    h_get f' sckey = (match p_sc p with Some sc => Some (sc_data sc) | None => h_get f sckey end) /\
    h_get f' akey = (match p_aux p with Some a => Some a | None => h_get f akey end) /\
    (forall k, ~ In k [dkey; sckey; akey] -> h_get f' k = h_get f k).
  Proof.
    intros ND. unfold save, save_writes, drop_scalar.
    destruct (has_label kC "scalar" (f_cols (p_data p))); [|discriminate]. cbn [bind]. intros H. injection H as <-.
    inversion ND as [|? ? N1 ND']; subst. inversion ND' as [|? ? N2 _]; subst.
    assert (D1 : dkey <> sckey) by (intros ->; apply N1; left; reflexivity).
    assert (D2 : dkey <> akey) by (intros ->; apply N1; right; left; reflexivity).
    assert (D3 : sckey <> akey) by (intros ->; apply N2; left; reflexivity).
    apply String.eqb_neq in D1 as E1, D2 as E2, D3 as E3.
    assert (E1' : String.eqb sckey dkey = false) by (apply String.eqb_neq; congruence).
    assert (E2' : String.eqb akey dkey = false) by (apply String.eqb_neq; congruence).
    assert (E3' : String.eqb akey sckey = false) by (apply String.eqb_neq; congruence).
    unfold write_all. cbn [fold_left].
    repeat split.
    1-3: destruct (p_sc p), (p_aux p); cbn [app fold_left fst snd]; rewrite ?h_get_put, ?String.eqb_refl, ?E1, ?E2, ?E3, ?E1', ?E2', ?E3'; reflexivity.
    intros k Hk.
    assert (String.eqb k dkey = false) by (apply String.eqb_neq; intros ->; apply Hk; simpl; tauto).
    assert (String.eqb k sckey = false) by (apply String.eqb_neq; intros ->; apply Hk; simpl; tauto).
    assert (String.eqb k akey = false) by (apply String.eqb_neq; intros ->; apply Hk; simpl; tauto).
    destruct (p_sc p), (p_aux p); cbn [app fold_left fst snd]; rewrite ?h_get_put, ?H, ?H0, ?H1; reflexivity.
  Qed.

  (* ------------------------------------------------------------ re-storing *)
  Lemma scalar_cols (p : plasma T) k : wf p -> In k (f_cols (p_data p)) -> kC k = "scalar" -> is_scalar k.
  Proof.
    intros W Hk Hc. destruct (wf_stored _ W) as [new ST].
    apply (st_cols _ _ _ ST) in Hk as [[_ H]|[H _]]; [|exact H].
    apply in_slice_iff in H as (_ & H & _). rewrite Hc in H. simpl in H.
    repeat destruct H as [H|H]; try discriminate; contradiction.
  Qed.
  Lemma noscalar_In (d : frame T) k : In k (f_cols (noscalar d)) <-> In k (f_cols d) /\ kC k <> "scalar".
  Proof.
    unfold noscalar. rewrite f_select_In, negb_true_iff, String.eqb_neq. reflexivity.
  Qed.

  Lemma restore_noscalar (p : plasma T) sp q d' d'' :
    wf p -> (forall s, In s sp <-> In s (p_species p)) ->
    (forall k, In k (f_cols d') <-> In k (f_cols (noscalar (p_data p)))) ->
    f_rows d' = filter q (f_rows (p_data p)) -> stored sp d' d'' ->
    f_cols d'' = f_cols (p_data p) /\ same_rows (f_cols d'') (filter q (f_rows (p_data p))) (f_rows d'').
  Proof.
    intros W HS HC HR H'. destruct (wf_stored _ W) as [new H].
    assert (SL : forall k, in_slice sp k = in_slice (p_species p) k).
    { intros k. apply eq_true_iff_eq. rewrite !in_slice_iff, HS. reflexivity. }
    assert (CE : f_cols d'' = f_cols (p_data p)).
    { apply (sorted_set_eq key_leb key_leb_antisym).
      - exact (st_sorted _ _ _ H').
      - exact (st_sorted _ _ _ H).
      - exact (st_nodup _ _ _ H').
      - exact (st_nodup _ _ _ H).
      - intros k. rewrite (st_cols _ _ _ H'). split.
        + intros [[A1 A2]|[A1 [c [Hc [A2 A3]]]]].
          * apply HC, noscalar_In in A1. tauto.
          * apply HC, noscalar_In in A2 as [A2 _]. rewrite SL in A3.
            apply (st_cols _ _ _ H) in A2 as [[A2 _]|[[_ B] _]].
            { apply (st_cols _ _ _ H). right. split; [exact A1|]. exists c. auto. }
            { unfold kC in B. simpl in B. subst c. destruct Hc; discriminate. }
        + intros A1. pose proof A1 as A1'. apply (st_cols _ _ _ H) in A1 as [[A3 A4]|[A3 [c [Hc [A4 A5]]]]].
          * left. rewrite HC, SL, noscalar_In. repeat split; auto. intros E.
            apply (slice_not_scalar _ _ A4). exact (scalar_cols p k W A1' E).
          * right. split; [exact A3|]. exists c. split; [exact Hc|]. rewrite HC, SL, noscalar_In.
            repeat split; auto; [apply (st_cols _ _ _ H); left; auto|].
            unfold kC; simpl. destruct Hc as [->| ->]; discriminate. }
    split; [exact CE|].
    destruct (st_rows _ _ _ H) as [kept [W1 E]]. destruct (st_rows _ _ _ H') as [kept' [W' E']].
    rewrite E', HR, E. unfold same_rows.
    clear E E' HR. induction (f_rows new) as [|[z r] l IH]; [constructor|]. cbn [map filter fst snd].
    destruct (q (z, add_scalar kept r)); [|exact IH]. cbn [map]. constructor; [|exact IH].
    cbn [fst snd]. split; [reflexivity|]. intros k Hk.
    assert (Dec : is_scalar k \/ ~ is_scalar k).
    { unfold is_scalar. destruct (string_dec (kM k) "w"), (string_dec (kC k) "scalar"); tauto. }
    destruct Dec as [D|D].
    - rewrite !add_scalar_scalar by exact D.
      rewrite (w_scalar_wl kept (f_cols (p_data p))) by apply W1.
      rewrite (w_scalar_wl kept' (f_cols d'')) by apply W'.
      rewrite (w_scalar_ext (f_cols d'') (kS k) (add_scalar kept r) r)
        by (intros k' Hk' _; apply add_scalar_other, wcol_not_scalar, Hk').
      rewrite CE. reflexivity.
    - rewrite !add_scalar_other by exact D. reflexivity.
  Qed.

  (** rebuilding a plasma from its saved table, or some rows of it *)
  Lemma reload_data (p : plasma T) sp q d' :
    wf p -> (forall s, In s sp <-> In s (p_species p)) ->
    f_cols d' = f_cols (noscalar (p_data p)) -> f_dt d' = f_dt (p_data p) ->
    f_rows d' = filter q (f_rows (p_data p)) -> f_rows d' <> [] ->
    exists p', make_plasma d' sp None None = Ok p' /\ p_species p' = sort_str sp /\
      f_cols (p_data p') = f_cols (p_data p) /\
      same_rows (f_cols (p_data p)) (filter q (f_rows (p_data p))) (f_rows (p_data p')) /\
      f_dt (p_data p') = f_dt (p_data p) /\ p_sc p' = None /\ p_aux p' = None.
  Proof.
    intros W HS EC ED ER HN.
    assert (HS' : forall s, In s (sort_str sp) <-> In s (p_species p)) by (intros s; rewrite sort_In; apply HS).
    assert (NS : forall k, In k (f_cols (p_data p)) -> kC k <> "scalar" -> In k (f_cols d')).
    { intros k H1 H2. rewrite EC. apply noscalar_In. auto. }
    assert (CP : complete (sort_str sp) d').
    { destruct (wf_complete _ W) as [_ C2 C3 C4]. split.
      - exact HN.
      - intros E. destruct (p_species p) as [|s l]; [contradiction|].
        assert (X : In s (sort_str sp)) by (apply HS'; left; reflexivity). rewrite E in X. destruct X.
      - intros s Hs k Hk. apply NS; [apply (C3 s (proj1 (HS' s) Hs) k Hk)|].
        unfold ion_required in Hk. simpl in Hk. repeat destruct Hk as [<-|Hk]; try contradiction; discriminate.
      - intros c Hc. apply NS; [apply C4, Hc|]. simpl in Hc. repeat destruct Hc as [<-|Hc]; try contradiction; discriminate. }
    destruct (complete_ok _ _ CP) as [d'' Hd]. pose proof (set_data_stored _ _ _ Hd) as ST.
    destruct (restore_noscalar p (sort_str sp) q d' d'' W HS') as [CE RE]; auto.
    { intros k. rewrite EC. reflexivity. }
    assert (CP' : complete (sort_str sp) d'').
    { destruct (wf_complete _ W) as [_ C2 C3 C4]. split.
      - exact (stored_rows_ne _ _ _ ST).
      - exact (cp_sp _ _ CP).
      - intros s Hs k Hk. rewrite CE. apply (C3 s (proj1 (HS' s) Hs) k Hk).
      - intros c Hc. rewrite CE. apply C4, Hc. }
    assert (HP : forall s, In s (sort_str sp) -> has_char plus s = false) by (intros s Hs; apply (wf_plus _ W), HS', Hs).
    assert (HK : forall s, In s (sort_str sp) -> has_char comma s = false) by (intros s Hs; apply (wf_comma _ W), HS', Hs).
    assert (E1 : clean_species_for_setting sp = Ok (sort_str sp)).
    { apply clean_ok. repeat split; auto.
      - intros ->. apply (cp_sp _ _ CP). reflexivity.
      - intros s Hs. apply HP, sort_In, Hs. }
    destruct (set_ions_ok (sort_str sp) d'' (stored_rows_ne _ _ _ ST) (cp_sp _ _ CP) (st_b _ _ _ ST) HP) as [I1 _].
    { intros s Es. apply HK. rewrite Es. left; reflexivity. }
    apply I1 in CP' as I. unfold make_plasma. rewrite E1. cbn [bind]. rewrite Hd. cbn [bind]. rewrite I.
    cbn [bind set_spacecraft sc_check p_data set_aux aux_check]. eexists. split; [reflexivity|].
    cbn [p_species p_data p_sc p_aux]. split; [reflexivity|]. split; [exact CE|].
    split; [rewrite <- CE; exact RE|]. split; [|auto]. rewrite (st_dt _ _ _ ST). exact ED.
  Qed.

  Lemma default_species_In (p : plasma T) (rows : list (Z * row T)) dt s : wf p -> ~ In "" (p_species p) ->
    In s (default_species {| f_cols := f_cols (noscalar (p_data p)); f_dt := dt; f_rows := rows |}) <->
    In s (p_species p).
  Proof.
    intros W N. unfold default_species. cbn [f_cols]. rewrite filter_In, first_unique_In, negb_true_iff, String.eqb_neq.
    rewrite in_map_iff. split.
    - intros [[[k [<- Hk]] _] NE]. apply noscalar_In in Hk as [Hk _].
      destruct (wf_stored _ W) as [new ST]. apply (st_cols _ _ _ ST) in Hk as [[_ H]|[_ [c [_ [_ H]]]]].
      + apply in_slice_iff in H as (_ & _ & [H|H]); [exact H|contradiction].
      + apply in_slice_iff in H as (_ & _ & [H|H]); [exact H|contradiction].
    - intros Hs. split; [split; [|intros []]|].
      + exists ("n", "", s). split; [reflexivity|]. apply noscalar_In. split; [|discriminate].
        apply (cp_ions _ _ (wf_complete _ W) s Hs). left; reflexivity.
      + intros ->. contradiction.
  Qed.

  (* ------------------------------------------------------------ windows *)
  Lemma filter_label rows (z : Z) (r : row T) : NoDup (map fst rows) -> In (z, r) rows ->
    filter (fun zr => Z.eqb (fst zr) z) rows = [(z, r)].
  Proof.
    induction rows as [|[z0 r0] rows IH]; intros ND Hi; [destruct Hi|].
    cbn [map fst] in ND. inversion ND as [|? ? N1 N2]; subst. cbn [filter fst].
    assert (F : forall l, ~ In z (map fst l) -> filter (fun zr : Z * row T => Z.eqb (fst zr) z) l = []).
    { induction l as [|[y s] l IHl]; intros NI; [reflexivity|]. cbn [filter fst].
      destruct (Z.eqb_spec y z); [exfalso; apply NI; left; exact e|]. apply IHl. intros X; apply NI; right; exact X. }
    destruct Hi as [Hi|Hi].
    - injection Hi as -> ->. rewrite Z.eqb_refl, F by exact N1. reflexivity.
    - destruct (Z.eqb_spec z0 z) as [->|_]; [|exact (IH N2 Hi)].
      exfalso. apply N1. apply in_map_iff. exists (z, r). auto.
  Qed.
  Lemma loc_labels_window (d : frame T) q : NoDup (f_index d) ->
    loc_labels (map fst (filter (fun zr => q (fst zr)) (f_rows d))) d =
      Ok {| f_cols := f_cols d; f_dt := f_dt d; f_rows := filter (fun zr => q (fst zr)) (f_rows d) |}.
  Proof.
    intros ND. unfold loc_labels.
    rewrite (proj2 (forallb_forall _ _)).
    - do 2 f_equal. unfold f_index in ND. set (rows := f_rows d) in *. clearbody rows.
      assert (G : forall l, incl l rows ->
        flat_map (fun t => filter (fun zr : Z * row T => Z.eqb (fst zr) t) rows) (map fst l) = l).
      { induction l as [|[z r] l IH]; intros HI; [reflexivity|]. cbn [map flat_map fst].
        rewrite (filter_label rows z r ND) by (apply HI; left; reflexivity).
        cbn [app]. f_equal. apply IH. intros x Hx. apply HI. right; exact Hx. }
      apply G. intros x Hx. apply filter_In in Hx. tauto.
    - intros t Ht. apply in_map_iff in Ht as [[z r] [<- Hz]]. apply filter_In in Hz as [Hz _].
      apply existsb_exists. exists (z, r). split; [exact Hz|apply Z.eqb_refl].
  Qed.
  Lemma filter_index {X} q (l : list (Z * X)) : map fst (filter (fun zr => q (fst zr)) l) = filter q (map fst l).
  Proof. induction l as [|[z x] l IH]; [reflexivity|]. cbn [filter map fst]. destruct (q z); cbn [map fst]; rewrite IH; reflexivity. Qed.
  Lemma monotonic_iff l : monotonic l = true <-> Sorted Z.le l.
  Proof.
    induction l as [|x [|y l] IH].
    - split; intros _; [constructor|reflexivity].
    - split; intros _; [repeat constructor|reflexivity].
    - cbn [monotonic] in *. rewrite andb_true_iff, IH, Z.leb_le. split.
      + intros [H1 H2]. constructor; [exact H2|]. constructor; exact H1.
      + intros H. inversion H as [|? ? H1 H2]; subst. inversion H2; subst. auto.
  Qed.
  Definition windowed (start stop : option Z) (d : frame T) : frame T :=
    match start, stop with
    | None, None => d
    | _, _ => {| f_cols := f_cols d; f_dt := f_dt d;
                 f_rows := filter (fun zr => in_window start stop (fst zr)) (f_rows d) |}
    end.
  Lemma windowed_spec start stop (d : frame T) : windowed start stop d =
    {| f_cols := f_cols d; f_dt := f_dt d; f_rows := filter (fun zr => in_window start stop (fst zr)) (f_rows d) |}.
  Proof.
    unfold windowed. destruct start, stop; try reflexivity. destruct d as [c dt r]. cbn [f_cols f_dt f_rows].
    f_equal. symmetry. apply filter_true. reflexivity.
  Qed.
  Lemma loc_if_window start stop (d : frame T) : (start = None /\ stop = None \/ NoDup (f_index d)) ->
    loc_if start stop (filter (in_window start stop) (f_index d)) d = Ok (windowed start stop d).
  Proof.
    intros H. unfold loc_if, windowed. unfold f_index. rewrite <- filter_index.
    destruct start, stop; try reflexivity; apply loc_labels_window; destruct H as [[? ?]|H]; try discriminate; exact H.
  Qed.
  Lemma loc_slice_window start stop (d : frame T) : (start = None /\ stop = None \/ Sorted Z.le (f_index d)) ->
    loc_slice start stop d = Ok (windowed start stop d).
  Proof.
    intros H. unfold loc_slice, windowed.
    assert (M : (start = None /\ stop = None) \/ monotonic (f_index d) = true).
    { destruct H; [auto|right]. apply monotonic_iff. exact H. }
    destruct start, stop; try reflexivity; destruct M as [[? ?]|M]; try discriminate; rewrite M; reflexivity.
  Qed.

  Definition sc_windowed (start stop : option Z) (sc : spacecraft T) : spacecraft T :=
    {| sc_data := windowed start stop (sc_data sc); sc_name := sc_name sc; sc_frame := sc_frame sc |}.
  Definition made_sc (sc : spacecraft T) : Prop := exists data n fr, make_spacecraft data n fr = Ok sc.

  (** the general round trip *)
  Lemma reload (p : plasma T) f f' dkey sckey akey sp start stop :
    wf p -> ~ In "" (p_species p) -> (forall sc, p_sc p = Some sc -> made_sc sc) ->
    NoDup [dkey; sckey; akey] -> save p dkey sckey akey f = Ok f' ->
    (sp = [] \/ forall s, In s sp <-> In s (p_species p)) ->
    (start = None /\ stop = None \/ Sorted Z.lt (f_index (p_data p))) ->
    (exists t, In t (f_index (p_data p)) /\ in_window start stop t = true) ->
    exists p', load_from_file f' sp dkey
        (match p_sc p with Some _ => Some sckey | None => None end)
        (match p_aux p with Some _ => Some akey | None => None end)
        (match p_sc p with Some sc => Some (sc_frame sc) | None => None end)
        (match p_sc p with Some sc => Some (sc_name sc) | None => None end) start stop = Ok p' /\
      (forall s, In s (p_species p') <-> In s (p_species p)) /\
      f_cols (p_data p') = f_cols (p_data p) /\
      same_rows (f_cols (p_data p)) (f_rows (windowed start stop (p_data p))) (f_rows (p_data p')) /\
      p_sc p' = option_map (sc_windowed start stop) (p_sc p) /\
      p_aux p' = option_map (windowed start stop) (p_aux p).
  Proof.
    intros W NE HSC ND HS HSP HW HX.
    destruct (save_get p dkey sckey akey f f' ND HS) as (G1 & G2 & G3 & _).
    assert (HND : start = None /\ stop = None \/ NoDup (f_index (p_data p))).
    { destruct HW as [HW|HW]; [auto|right]. clear -HW. apply Sorted_StronglySorted in HW; [|intros x y z; lia].
      induction HW as [|x l _ IH HF]; constructor; [|exact IH]. intros Hi.
      rewrite Forall_forall in HF. specialize (HF x Hi). lia. }
    assert (HLE : start = None /\ stop = None \/ Sorted Z.le (f_index (p_data p))).
    { destruct HW as [HW|HW]; [auto|right]. clear -HW.
      induction HW as [|x l HL IH HF]; constructor; [exact IH|]. destruct HF; constructor; lia. }
    unfold load_from_file, read_hdf. rewrite G1. cbn [bind].
    assert (IX : f_index (noscalar (p_data p)) = f_index (p_data p)) by reflexivity.
    rewrite loc_slice_window by (rewrite IX; exact HLE). cbn [bind].
    rewrite windowed_spec. cbn [noscalar f_select f_cols f_dt f_rows].
    set (q := fun zr : Z * row T => in_window start stop (fst zr)).
    set (d2 := {| f_cols := _; f_dt := _; f_rows := _ |}).
    set (sp' := match sp with [] => default_species d2 | _ => sp end).
    assert (SP' : forall s, In s sp' <-> In s (p_species p)).
    { intros s. unfold sp'. destruct HSP as [->|HSP].
      - apply (default_species_In p (filter q (f_rows (p_data p))) (f_dt (p_data p)) s W NE).
      - destruct sp as [|s0 l]; [|apply HSP].
        exfalso. destruct (wf_complete _ W) as [_ C2 _ _]. destruct (p_species p) as [|s1 l1]; [contradiction|].
        apply (HSP s1). left; reflexivity. }
    assert (RN : filter q (f_rows (p_data p)) <> []).
    { destruct HX as [t [Ht HT]]. unfold f_index in Ht. apply in_map_iff in Ht as [zr [<- Hz]].
      intros E. assert (X : In zr (filter q (f_rows (p_data p)))) by (apply filter_In; auto). rewrite E in X. destruct X. }
    destruct (reload_data p sp' q d2 W SP') as (p1 & M1 & SP1 & CE & RE & DT & SC1 & AX1); try reflexivity; [exact RN|].
    rewrite M1. cbn [bind].
    assert (I2 : f_index d2 = filter (in_window start stop) (f_index (p_data p))).
    { unfold d2, f_index, q. cbn [f_rows]. apply filter_index. }
    assert (I1 : f_index (p_data p1) = filter (in_window start stop) (f_index (p_data p))).
    { unfold f_index. rewrite <- (same_rows_index _ _ _ RE). unfold q. apply filter_index. }
    assert (WI : forall d : frame T, f_index (windowed start stop d) = filter (in_window start stop) (f_index d)).
    { intros d. rewrite windowed_spec. unfold f_index. cbn [f_rows]. apply filter_index. }
    (* the spacecraft *)
    assert (PSC : exists p2,
      (match match p_sc p with Some _ => Some sckey | None => None end with
       | None => Ok p1
       | Some k =>
           bind (match h_get f' k with Some d => Ok d | None => Err KeyError end) (fun sc =>
           match match p_sc p with Some sc => Some (sc_name sc) | None => None end,
                 match p_sc p with Some sc => Some (sc_frame sc) | None => None end with
           | Some n, Some fr =>
               bind (loc_if start stop (f_index d2) sc) (fun sc =>
               bind (make_spacecraft sc n fr) (fun sc => set_spacecraft p1 (Some sc)))
           | _, _ => Err ValueError
           end)
       end) = Ok p2 /\
      p_species p2 = p_species p1 /\ p_data p2 = p_data p1 /\ p_aux p2 = p_aux p1 /\
      p_sc p2 = option_map (sc_windowed start stop) (p_sc p)).
    { destruct (p_sc p) as [sc|] eqn:ESC.
      - rewrite G2. cbn [bind].
        destruct (wf_sc _ W sc ESC) as [SD SI].
        rewrite I2, <- SI. rewrite loc_if_window by (rewrite SI; exact HND). cbn [bind].
        destruct (HSC sc eq_refl) as (dat & n & fr & HM).
        assert (RN' : f_rows (windowed start stop (sc_data sc)) <> []).
        { intros E. assert (X : f_index (windowed start stop (sc_data sc)) = []) by (unfold f_index; rewrite E; reflexivity).
          rewrite WI, SI in X. destruct HX as [t [Ht HT]].
          assert (Y : In t (filter (in_window start stop) (f_index (p_data p)))) by (apply filter_In; auto).
          rewrite X in Y. destruct Y. }
        destruct (make_spacecraft_again dat n fr sc (f_rows (windowed start stop (sc_data sc))) HM RN') as [E1 E2].
        assert (EW : windowed start stop (sc_data sc) =
          {| f_cols := f_cols (sc_data sc); f_dt := true; f_rows := f_rows (windowed start stop (sc_data sc)) |}).
        { rewrite !windowed_spec. cbn [f_rows]. rewrite E1. reflexivity. }
        assert (E3 : make_spacecraft (windowed start stop (sc_data sc)) (sc_name sc) (sc_frame sc) = Ok (sc_windowed start stop sc)).
        { unfold sc_windowed. revert E2. rewrite <- EW. auto. }
        rewrite E3. cbn [bind].
        unfold set_spacecraft.
        rewrite (proj2 (sc_check_ok _ _)).
        + cbn [bind]. eexists. split; [reflexivity|]. cbn [p_species p_data p_aux p_sc]. auto.
        + intros sc' X. injection X as <-. cbn [sc_windowed sc_data]. split.
          * rewrite windowed_spec. exact E1.
          * rewrite I1, WI, SI. reflexivity.
      - exists p1. rewrite SC1. auto 10. }
    destruct PSC as (p2 & EP2 & S2 & D2 & A2 & C2). rewrite EP2. cbn [bind]. clear EP2.
    destruct (p_aux p) as [a|] eqn:EA.
    - rewrite G3. cbn [bind]. destruct (wf_aux _ W a EA) as (AD & AI & AK).
      rewrite I2, <- AI. rewrite loc_if_window by (rewrite AI; exact HND). cbn [bind].
      unfold set_aux. rewrite D2. rewrite (proj2 (aux_check_ok _ _)).
      + cbn [bind]. eexists. split; [reflexivity|]. cbn [p_species p_data p_aux p_sc].
        rewrite S2, SP1. split; [intros s; rewrite sort_In; apply SP'|].
        split; [exact CE|]. split; [rewrite windowed_spec; exact RE|]. split; [exact C2|reflexivity].
      + intros a' X. injection X as <-. split; [rewrite windowed_spec; exact AD|]. split.
        * rewrite I1, WI, AI. reflexivity.
        * intros k. rewrite windowed_spec, CE. cbn [f_cols]. apply AK.
    - exists p2. split; [reflexivity|]. rewrite S2, SP1, D2, A2, AX1.
      split; [intros s; rewrite sort_In; apply SP'|]. split; [exact CE|].
      split; [rewrite windowed_spec; exact RE|]. split; [exact C2|reflexivity].
  Qed.
End P.
