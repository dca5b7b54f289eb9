(** Proofs about the in-place electron estimate and about the values of the scalar thermal speed. *)
From Coq Require Import List String Ascii Bool Arith ZArith Sorted Permutation Lia Reals Lra.
From Verif Require Import Py PyStr Sort Num Species SpeciesProofs Frame FrameProofs Plasma.
Import ListNotations.
Open Scope string_scope.
Open Scope py_scope.

Section Electrons.
  Context {T : Type} {A : Arith T}.
  Implicit Types (p : plasma T) (d : frame T).

  Lemma stored_scalar_value sp new d z (r : row T) s :
    stored sp new d -> In (z, r) (f_rows d) -> r ("w", "scalar", s) = w_scalar (f_cols d) s r.
  Proof.
    intros H Hr. destruct (st_rows _ _ _ H) as [kept [W E]]. rewrite E in Hr.
    apply in_map_iff in Hr as [[z0 r0] [E1 _]]. cbn [fst snd] in E1. injection E1 as _ <-.
    rewrite add_scalar_scalar by (split; reflexivity). unfold kS. cbn [snd].
    rewrite (w_scalar_wl kept (f_cols d)) by apply W. apply w_scalar_ext.
    intros k Hk _. symmetry. apply add_scalar_other, wcol_not_scalar, Hk.
  Qed.

  Lemma stored_species sp new d k : stored sp new d -> In k (f_cols d) -> In (kS k) sp \/ kS k = "".
  Proof.
    intros H Hk. apply (st_cols _ _ _ H) in Hk as [[_ Hk]|[_ [c [_ [_ Hk]]]]]; apply in_slice_iff in Hk; apply Hk.
  Qed.

  Lemma electron_cols_S k : In k electron_cols -> kS k = "e".
  Proof. unfold electron_cols. simpl. intros H. repeat destruct H as [<-|H]; try reflexivity. destruct H. Qed.

  Lemma electron_ref_noe' species t : electron_ref species = Ok t -> ~ In "e" species.
  Proof.
    unfold electron_ref. destruct (mem_str "e" species) eqn:E; [discriminate|]. intros _. apply mem_str_not, E.
  Qed.

  Lemma electrons_noe K ions species f : estimate_electrons (T := T) K ions species = Ok f -> ~ In "e" species.
  Proof.
    unfold estimate_electrons. destruct (electron_ref species) as [t|e] eqn:E; [|discriminate].
    intros _. exact (electron_ref_noe' _ _ E).
  Qed.

  Lemma inplace_inv K p f :
    wf p -> estimate_electrons K (p_ions p) (p_species p) = Ok f ->
    exists p', estimate_electrons_inplace K p = Ok p' /\
      p_species p' = sort_str (p_species p ++ ["e"]) /\ p_ions p' = nodup_str (p_species p') /\
      p_sc p' = p_sc p /\ p_aux p' = p_aux p /\ f_dt (p_data p') = f_dt (p_data p) /\
      p_ion_data p' = p_data p' /\
      (forall k, In k (f_cols (p_data p')) <-> In k (f_cols (p_data p)) \/ In k electron_cols \/ k = ("w", "scalar", "e")) /\
      Forall2 (fun a b => fst a = fst b /\ (forall k, In k (f_cols (p_data p)) -> snd b k = snd a k) /\
                          (forall k, In k electron_cols -> snd b k = with_electrons f (snd a) k))
              (f_rows (p_data p)) (f_rows (p_data p')) /\
      ((forall a, p_aux p = Some a -> forall k, In k (f_cols a) -> kS k <> "e") -> wf p').
  Proof.
    intros W Hf. unfold estimate_electrons_inplace. rewrite Hf. cbn [bind].
    pose proof (electrons_noe _ _ _ _ Hf) as NE.
    destruct (wf_stored _ W) as [new SN].
    set (sp' := sort_str (p_species p ++ ["e"])).
    assert (SI : forall s, In s sp' <-> In s (p_species p) \/ s = "e").
    { intros s. unfold sp'. rewrite sort_In, in_app_iff. simpl. intuition. }
    assert (HN : sp' <> []).
    { intros E. assert (In "e" sp') by (apply SI; auto). rewrite E in H. destruct H. }
    assert (HP : forall s, In s sp' -> has_char plus s = false).
    { intros s Hs. apply SI in Hs as [Hs| ->]; [apply (wf_plus _ W), Hs|reflexivity]. }
    assert (HK : forall s, In s sp' -> has_char comma s = false).
    { intros s Hs. apply SI in Hs as [Hs| ->]; [apply (wf_comma _ W), Hs|reflexivity]. }
    assert (E1 : clean_species_for_setting sp' = Ok sp').
    { apply clean_ok. repeat split; auto. unfold sp'. symmetry. apply sort_idem. }
    rewrite E1. cbn [bind].
    set (N := mkFrame (f_cols (p_data p) ++ electron_cols) (f_dt (p_data p)) _).
    assert (CP : complete sp' N).
    { destruct (wf_complete _ W) as [C1 C2 C3 C4]. split.
      - unfold N. cbn [f_rows]. destruct (f_rows (p_data p)); [contradiction|discriminate].
      - exact HN.
      - intros s Hs k Hk. unfold N. cbn [f_cols]. rewrite in_app_iff. apply SI in Hs as [Hs| ->].
        + left. exact (C3 s Hs k Hk).
        + right. exact Hk.
      - intros c Hc. unfold N. cbn [f_cols]. rewrite in_app_iff. left. auto. }
    destruct (complete_ok _ _ CP) as [d' Hd']. rewrite Hd'. cbn [bind].
    pose proof (set_data_stored _ _ _ Hd') as ST.
    assert (CP' : complete sp' d').
    { split; [exact (stored_rows_ne _ _ _ ST)|exact HN| |exact (st_b _ _ _ ST)].
      intros s Hs k Hk. apply (st_cols _ _ _ ST). left. split; [apply (cp_ions _ _ CP s Hs k Hk)|].
      exact (ion_required_slice sp' s k Hs Hk). }
    destruct (set_ions_ok sp' d' (stored_rows_ne _ _ _ ST) HN (st_b _ _ _ ST) HP) as [I1 _].
    { intros s E. apply HK. rewrite E. left; reflexivity. }
    apply I1 in CP' as I. rewrite I. cbn [bind].
    assert (SL : forall k, in_slice (p_species p) k = true -> in_slice sp' k = true).
    { intros k. rewrite !in_slice_iff, SI. tauto. }
    assert (SL' : forall k, in_slice sp' k = true -> kS k <> "e" -> in_slice (p_species p) k = true).
    { intros k. rewrite !in_slice_iff, SI. tauto. }
    assert (SE : forall k, In k electron_cols -> in_slice sp' k = true).
    { intros k Hk. apply (ion_required_slice sp' "e"); [apply SI; auto|exact Hk]. }
    assert (NOTE : forall k, In k (f_cols (p_data p)) -> kS k <> "e").
    { intros k Hk. destruct (stored_species _ _ _ _ SN Hk) as [H|H]; [intros E; rewrite E in H; contradiction|].
      rewrite H. discriminate. }
    assert (COLS : forall k, In k (f_cols d') <-> In k (f_cols (p_data p)) \/ In k electron_cols \/ k = ("w", "scalar", "e")).
    { intros k. rewrite (st_cols _ _ _ ST). unfold N. cbn [f_cols]. rewrite in_app_iff. split.
      - intros [[[H|H] _]|[H [c [Hc [H1 H2]]]]]; auto.
        rewrite in_app_iff in H1. destruct H1 as [H1|H1].
        + left. apply (st_cols _ _ _ SN). right. split; [exact H|]. exists c. split; [exact Hc|].
          apply (st_cols _ _ _ SN) in H1 as [H1|[[_ H1] _]]; [exact H1|].
          unfold kC in H1. simpl in H1. subst c. destruct Hc; discriminate.
        + right. right. apply electron_cols_S in H1. destruct k as [[m c'] s]. unfold kS in H1. simpl in H1.
          destruct H as [HM HC]. unfold kM, kC in HM, HC. simpl in HM, HC. subst. reflexivity.
      - intros [H|[H|H]].
        + apply (st_cols _ _ _ SN) in H as H'. destruct H' as [[H1 H2]|[H1 [c [Hc [H2 H3]]]]].
          * left. split; [auto|apply SL, H2].
          * right. split; [exact H1|]. exists c. split; [exact Hc|]. rewrite in_app_iff.
            split; [left; apply (st_cols _ _ _ SN); left; auto|apply SL, H3].
        + left. split; [auto|apply SE, H].
        + right. subst k. split; [split; reflexivity|]. exists "par". split; [auto|].
          assert (In ("w", "par", "e") electron_cols) by (unfold electron_cols; simpl; tauto).
          split; [apply in_or_app; right; exact H|apply SE, H]. }
    assert (EX : f_index d' = f_index (p_data p)).
    { rewrite (stored_index _ _ _ ST). unfold f_index, N. cbn [f_rows]. rewrite map_map. reflexivity. }
    eexists. split; [reflexivity|]. cbn [p_species p_ions p_data p_ion_data p_sc p_aux].
    split; [reflexivity|]. split; [reflexivity|]. split; [reflexivity|]. split; [reflexivity|].
    split; [exact (st_dt _ _ _ ST)|]. split; [reflexivity|]. split; [exact COLS|].
    assert (NSC : forall k, In k electron_cols -> ~ is_scalar k).
    { intros k Hk. apply (slice_not_scalar sp'), SE, Hk. }
    split.
    - destruct (st_rows _ _ _ ST) as [kept [WL E]]. unfold N in E. cbn [f_rows] in E. rewrite map_map in E. cbn [fst snd] in E.
      rewrite E.
      assert (SC : forall z r s, In (z, r) (f_rows (p_data p)) -> r ("w", "scalar", s) = w_scalar (f_cols (p_data p)) s r)
        by (intros z r s Hr; exact (stored_scalar_value _ _ _ z r s SN Hr)).
      clear E. revert SC. generalize (f_rows (p_data p)) as rows.
      intros rows. induction rows as [|[z r] l IH]; intros SC; simpl; [constructor|]. constructor.
      + simpl. split; [reflexivity|]. split.
        * intros k Hk.
          assert (NEK : ~ In k electron_cols) by (intros H; apply (NOTE k Hk), electron_cols_S, H).
          assert (Dec : is_scalar k \/ ~ is_scalar k).
          { unfold is_scalar. destruct (string_dec (kM k) "w"), (string_dec (kC k) "scalar"); tauto. }
          destruct Dec as [D|D].
          { rewrite add_scalar_scalar by exact D.
            assert (EK : k = ("w", "scalar", kS k)).
            { destruct k as [[m c] s]. destruct D as [D1 D2]. unfold kM, kC in D1, D2. simpl in D1, D2. subst. reflexivity. }
            rewrite EK at 2. rewrite (SC z r (kS k)) by (left; reflexivity).
            rewrite (w_scalar_wl kept (f_cols d')) by apply WL.
            rewrite (w_scalar_ext (f_cols d') (kS k) (with_electrons f r) r).
            - apply w_scalar_wl. apply wl_eq.
              + exact (st_sorted _ _ _ ST).
              + exact (st_sorted _ _ _ SN).
              + exact (st_nodup _ _ _ ST).
              + exact (st_nodup _ _ _ SN).
              + intros k' Hw Hs. rewrite COLS. split; [|auto]. intros [H|[H|H]]; auto.
                * exfalso. apply electron_cols_S in H. apply (NOTE k Hk). congruence.
                * subst k'. discriminate.
            - intros k' Hw Hs. unfold with_electrons.
              assert (M : mem_key k' electron_cols = false).
              { apply mem_key_not. intros H. apply electron_cols_S in H. apply (NOTE k Hk). congruence. }
              rewrite M. reflexivity. }
          { rewrite add_scalar_other by exact D. unfold with_electrons.
            apply mem_key_not in NEK. rewrite NEK. reflexivity. }
        * intros k Hk. apply add_scalar_other, NSC, Hk.
      + apply IH; intros z' r' s Hr; apply (SC z'); right; exact Hr.
    - intros HA. split; cbn [p_species p_ions p_data p_ion_data p_sc p_aux].
      + eauto.
      + exact CP'.
      + apply sort_sorted.
      + exact HP.
      + exact HK.
      + reflexivity.
      + reflexivity.
      + intros sc Hsc. rewrite EX. apply (wf_sc _ W), Hsc.
      + intros a Ha. rewrite EX. destruct (wf_aux _ W a Ha) as (A1 & A2 & A3). repeat split; auto.
        intros k Hk Hd. apply COLS in Hd as [H|[H|H]].
        * exact (A3 k Hk H).
        * apply (HA a Ha k Hk), electron_cols_S, H.
        * apply (HA a Ha k Hk). subst k. reflexivity.
  Qed.
End Electrons.

(* ------------------------------------------------------------ scalar thermal speed, real values *)
Open Scope R_scope.
Lemma wl_two (cols : list key) s :
  StronglySorted (leP key_leb) cols -> NoDup cols ->
  In ("w", "par", s) cols -> In ("w", "per", s) cols -> wl cols s = [("w", "par", s); ("w", "per", s)].
Proof.
  intros S N H1 H2. apply (sorted_set_eq key_leb key_leb_antisym).
  - apply filter_sorted, S.
  - repeat constructor.
  - apply NoDup_filter, N.
  - constructor; [|constructor; [intros []|constructor]]. intros [H|[]]. discriminate.
  - intros k. rewrite wl_In. simpl. split.
    + intros (Hi & Hw & Hs). apply is_wcol_iff in Hw as [HM HC]. destruct k as [[m c] s'].
      unfold kM, kC, kS in *. simpl in *. subst. destruct HC as [-> | ->]; auto.
    + intros [<-|[<-|[]]]; repeat split; auto.
Qed.

Lemma w_coeff_par : (w_coeff "par" : XR) = Fin (1 / 3).
Proof. unfold w_coeff. simpl. rewrite !fin_ofZ, fin_div by lra. reflexivity. Qed.
Lemma w_coeff_per : (w_coeff "per" : XR) = Fin (2 / 3).
Proof. unfold w_coeff. simpl. rewrite !fin_ofZ, fin_div by lra. reflexivity. Qed.

Lemma w_scalar_two (cols : list key) s (r : row XR) :
  wl cols s = [("w", "par", s); ("w", "per", s)] ->
  w_scalar cols s r =
    asqrt (sum_skip [amul (asq (r ("w", "par", s))) (Fin (1 / 3)); amul (asq (r ("w", "per", s))) (Fin (2 / 3))]).
Proof.
  intros E. unfold w_scalar. change (filter _ cols) with (wl cols s). rewrite E. cbn [map kC fst snd].
  rewrite <- w_coeff_par, <- w_coeff_per. reflexivity.
Qed.
Lemma w_scalar_fin cols s (r : row XR) a b :
  wl cols s = [("w", "par", s); ("w", "per", s)] -> r ("w", "par", s) = Fin a -> r ("w", "per", s) = Fin b ->
  w_scalar cols s r = Fin (sqrt ((a * a + 2 * (b * b)) / 3)).
Proof.
  intros E Ha Hb. rewrite (w_scalar_two _ _ _ E), Ha, Hb. rewrite !fin_sq, !fin_mul.
  change [Fin (a * a * (1 / 3)); Fin (b * b * (2 / 3))] with (map Fin [a * a * (1 / 3); b * b * (2 / 3)]).
  rewrite sum_skip_fin. simpl Rsum. rewrite fin_sqrt by nra. do 2 f_equal. field.
Qed.
Lemma w_scalar_par_nan cols s (r : row XR) b :
  wl cols s = [("w", "par", s); ("w", "per", s)] -> r ("w", "par", s) = NaN -> r ("w", "per", s) = Fin b ->
  w_scalar cols s r = Fin (sqrt (2 * (b * b) / 3)).
Proof.
  intros E Ha Hb. rewrite (w_scalar_two _ _ _ E), Ha, Hb. rewrite fin_sq, fin_mul.
  unfold asq. rewrite !nan_mul_l. unfold sum_skip. cbn [fold_left]. change (aisnan NaN) with true. rewrite fin_isnan.
  cbv iota. rewrite fin_a0, fin_add, fin_sqrt by nra. do 2 f_equal. field.
Qed.
Lemma w_scalar_per_nan cols s (r : row XR) a :
  wl cols s = [("w", "par", s); ("w", "per", s)] -> r ("w", "par", s) = Fin a -> r ("w", "per", s) = NaN ->
  w_scalar cols s r = Fin (sqrt (a * a / 3)).
Proof.
  intros E Ha Hb. rewrite (w_scalar_two _ _ _ E), Ha, Hb. rewrite fin_sq, fin_mul.
  unfold asq. rewrite !nan_mul_l. unfold sum_skip. cbn [fold_left]. change (aisnan NaN) with true. rewrite fin_isnan.
  cbv iota. rewrite fin_a0, fin_add, fin_sqrt by nra. do 2 f_equal. field.
Qed.
Lemma w_scalar_both_nan cols s (r : row XR) :
  wl cols s = [("w", "par", s); ("w", "per", s)] -> r ("w", "par", s) = NaN -> r ("w", "per", s) = NaN ->
  w_scalar cols s r = Fin 0.
Proof.
  intros E Ha Hb. rewrite (w_scalar_two _ _ _ E), Ha, Hb.
  unfold asq. rewrite !nan_mul_l. unfold sum_skip. cbn [fold_left]. change (aisnan NaN) with true.
  cbv iota. rewrite fin_a0, fin_sqrt by lra. rewrite sqrt_0. reflexivity.
Qed.
