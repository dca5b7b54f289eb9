(** C212-C214: a session of drawing boxes on a figure: what the text says about it and what is drawn at its end. *)
From Coq Require Import Reals List String Ascii Bool Arith ZArith Lra Lia.
From Verif Require Import Py PyStr Num Sort Hist Labels MoreLabels Select SelectText HistThms LabelsThms MoreLabelsThms SelectThms.
Import ListNotations.
Open Scope string_scope.
Open Scope list_scope.

(* ---------------------------------------------------------------- specification *)
(** The four numbers of the summary: one below the other on a figure of several panels, in one line otherwise. *)
Definition summary (panels : bool) (patches : Z) (per selected empty : nat) : string :=
  let sep := if panels then newline else "  -  " in
  (show_Z patches ++ " Patches" ++ sep ++ show_count per ++ " Spectra / Patch" ++ sep ++ show_count selected ++ " Spectra Selected" ++ sep
   ++ show_count empty ++ " Empty Patches")%string.
Definition boxes {T} (es : list (event (T := T))) : list (box (T := T)) := flat_map (fun e => match e with Box b => [b] | _ => [] end) es.
Definition foreign {T} (es : list (event (T := T))) : nat := List.length (filter (fun e => match e with OtherPatch => true | _ => false end) es).
Definition open {T} (es : list (event (T := T))) : Prop := forall o n, ~ In (Disconnect o n) es.

(* ---------------------------------------------------------------- texts *)
Lemma replace_app c n a b : replace (String c "") n (a ++ b) = (replace (String c "") n a ++ replace (String c "") n b)%string.
Proof.
  induction a as [|k a IH]; [reflexivity|]. change (String k a ++ b)%string with (String k (a ++ b)%string). rewrite !replace_head, IH, sapp_assoc. reflexivity.
Qed.
Lemma number_no_newline z : has_char (ascii_of_nat 10) (show_Z z) = false.
Proof. apply (all_chars_no number_char); [|apply show_Z_chars]. vm_compute. intuition discriminate. Qed.
Lemma final_is_summary {T} (s : session (T := T)) d :
  final_text s d = summary (se_multi s) (num_selection_patches s) (s_per_patch d) (List.length (s_indices d)) (List.length (s_failed d)).
Proof.
  unfold final_text, summary, show_count. cbn [join]. destruct (se_multi s).
  - rewrite !sapp_assoc. reflexivity.
  - unfold newline at 1. rewrite !replace_app. rewrite !(replace_absent _ _ (show_Z _)) by apply number_no_newline. rewrite !sapp_assoc. reflexivity.
Qed.

(* ---------------------------------------------------------------- sessions *)
Section Session.
  Context (sci date : XR -> string) (xd yd : bool) (pick : sampler) (lx ly : bool) (data : list (row (T := XR))).
  Notation go := (run sci date xd yd pick lx ly data).
  Lemma run_app es es' s : go (es ++ es') s = bind (go es s) (go es').
  Proof. revert s. induction es as [|e es IH]; intros s; [reflexivity|]. cbn. destruct (step _ _ _ _ _ _ _ _ s e); [cbn; apply IH|reflexivity]. Qed.
  Lemma open_run es s : open es -> exists s', go es s = Ok s' /\ se_initial s' = se_initial s /\ se_multi s' = se_multi s /\ se_sampled s' = se_sampled s
    /\ se_corners s' = se_corners s ++ boxes es /\ se_patches s' = (se_patches s + List.length (boxes es) + foreign es)%nat.
  Proof.
    revert s. induction es as [|e es IH]; intros s H.
    - exists s. unfold foreign. cbn. rewrite app_nil_r. repeat split; try reflexivity; lia.
    - assert (H' : open es) by (intros o n X; exact (H o n (or_intror X))). destruct e as [b| |o n]; [| |exfalso; exact (H o n (or_introl eq_refl))]; cbn [run step bind].
      + destruct (IH (onselect sci date xd yd b s) H') as (s' & E & A1 & A2 & A3 & A4 & A5). exists s'. split; [exact E|].
        cbn in A1, A2, A3, A4, A5. rewrite A1, A2, A3, A4, A5. change (boxes (Box b :: es)) with (b :: boxes es). change (foreign (Box b :: es)) with (foreign es).
        cbn [List.length]. rewrite <- app_assoc. repeat split; try reflexivity; lia.
      + match goal with |- context [go es ?s0] => destruct (IH s0 H') as (s' & E & A1 & A2 & A3 & A4 & A5) end. exists s'. split; [exact E|].
        cbn in A1, A2, A3, A4, A5. rewrite A1, A2, A3, A4, A5. change (boxes (OtherPatch :: es)) with (boxes es). change (foreign (OtherPatch :: es)) with (S (foreign es)).
        repeat split; try reflexivity; lia.
  Qed.
  (** What the summary says at the end of any session: as patches it counts the boxes drawn, those that anything else put on the axes, and
      the hatched ones that disconnect itself has just added for the empty boxes. *)
  Theorem C212_summary_counts axes colorbar patches s0 es others n : start true axes colorbar patches = Ok s0 -> open es ->
    exists d s, sample_data pick lx ly data (boxes es) others n None = Ok d /\ go (es ++ [Disconnect others n]) s0 = Ok s
    /\ se_sampled s = Some d
    /\ se_text s = summary (Nat.ltb 1 (if colorbar then axes - 1 else axes)) (Z.of_nat (List.length (boxes es) + foreign es + List.length (s_failed d)))
                     n (List.length (s_indices d)) (List.length (s_failed d)).
  Proof.
    intros H0 HO. unfold start in H0. apply ok_inj in H0. destruct (open_run es s0 HO) as (s1 & E1 & A1 & A2 & A3 & A4 & A5).
    rewrite <- H0 in A1, A2, A3, A4, A5. cbn [se_initial se_patches se_corners se_multi se_sampled] in A1, A2, A3, A4, A5. cbn [app] in A4.
    destruct (sample_data pick lx ly data (boxes es) others n None) as [d|e] eqn:ED; [|discriminate].
    eexists d, _. split; [reflexivity|]. rewrite run_app, E1. cbn [bind run step]. unfold disconnect. rewrite A4, ED. cbn [bind]. split; [reflexivity|].
    cbn [se_sampled se_text]. split; [reflexivity|]. rewrite final_is_summary. unfold num_selection_patches. cbn [se_multi se_patches se_initial].
    rewrite A1, A2, A5.
    assert (NP : s_per_patch d = n) by (unfold sample_data in ED; apply ok_inj in ED; rewrite <- ED; reflexivity). rewrite NP. f_equal; [|lia].
    destruct colorbar.
    - destruct (Nat.ltb_spec 1 (axes - 1)), (Z.ltb_spec 1 (Z.of_nat axes - 1)); try reflexivity; lia.
    - destruct (Nat.ltb_spec 1 axes), (Z.ltb_spec 1 (Z.of_nat axes - 0)); try reflexivity; lia.
  Qed.
  (** So the number is that of the boxes drawn if none of them is empty and nothing else is on the axes ... *)
  Theorem C212_nonempty_partial axes colorbar patches s0 es others n d : start true axes colorbar patches = Ok s0 -> open es -> foreign es = 0%nat ->
    sample_data pick lx ly data (boxes es) others n None = Ok d -> s_failed d = [] ->
    exists s, go (es ++ [Disconnect others n]) s0 = Ok s
    /\ se_text s = summary (Nat.ltb 1 (if colorbar then axes - 1 else axes)) (Z.of_nat (List.length (boxes es))) n (List.length (s_indices d)) 0.
  Proof.
    intros H0 HO HF HD HE. destruct (C212_summary_counts _ _ _ s0 es others n H0 HO) as (d' & s & ED & ER & _ & ET).
    assert (d' = d) by congruence. subst d'. exists s. split; [exact ER|]. rewrite ET, HE, HF. cbn [List.length]. rewrite !Nat.add_0_r. reflexivity.
  Qed.
  (** ... and wrong as soon as one is empty. *)
  Theorem C212_empty_boxes_counted_twice_refuted axes colorbar patches s0 es others n d : start true axes colorbar patches = Ok s0 -> open es ->
    sample_data pick lx ly data (boxes es) others n None = Ok d -> s_failed d <> [] ->
    exists s k, go (es ++ [Disconnect others n]) s0 = Ok s
    /\ se_text s = summary (Nat.ltb 1 (if colorbar then axes - 1 else axes)) k n (List.length (s_indices d)) (List.length (s_failed d))
    /\ (Z.of_nat (List.length (boxes es)) < k)%Z.
  Proof.
    intros H0 HO HD HE. destruct (C212_summary_counts _ _ _ s0 es others n H0 HO) as (d' & s & ED & ER & _ & ET).
    assert (d' = d) by congruence. subst d'. eexists s, _. split; [exact ER|]. split; [exact ET|]. destruct (s_failed d); [contradiction|cbn [List.length]; lia].
  Qed.

  (* -------------------------------------------------------------- C213 *)
  (** After each box the text says its number and its corners, and the object remembers the boxes in the order drawn. *)
  Theorem C213_each_box axes colorbar patches s0 es b : start true axes colorbar patches = Ok s0 -> open es ->
    exists s, go (es ++ [Box b]) s0 = Ok s /\ se_corners s = boxes es ++ [b]
    /\ (foreign es = 0%nat -> se_text s =
        ("Patch " ++ show_Z (Z.of_nat (List.length (boxes es) + 1)) ++ newline
         ++ "Lower Left  ('" ++ (if xd then date (b_x0 b) else sci (b_x0 b)) ++ "', '" ++ (if yd then date (b_y0 b) else sci (b_y0 b)) ++ "')" ++ newline
         ++ "Upper Right ('" ++ (if xd then date (b_x1 b) else sci (b_x1 b)) ++ "', '" ++ (if yd then date (b_y1 b) else sci (b_y1 b)) ++ "')")%string).
  Proof.
    intros H0 HO. unfold start in H0. apply ok_inj in H0. destruct (open_run es s0 HO) as (s1 & E1 & A1 & A2 & A3 & A4 & A5).
    rewrite <- H0 in A1, A2, A3, A4, A5. cbn [se_initial se_patches se_corners se_multi se_sampled] in A1, A2, A3, A4, A5. cbn [app] in A4.
    eexists. rewrite run_app, E1. cbn [bind run step]. split; [reflexivity|]. unfold onselect. cbn [se_corners se_text]. rewrite A4. split; [reflexivity|].
    intros HF. unfold patch_text, corner_text, num_selection_patches. cbn [se_patches se_initial]. rewrite A1, A5, HF.
    replace (Z.of_nat (patches + 1 + List.length (boxes es) + 0 + 1) - Z.of_nat (patches + 1))%Z with (Z.of_nat (List.length (boxes es) + 1)) by lia.
    rewrite !sapp_assoc. reflexivity.
  Qed.
End Session.
(** With matplotlib 3.7 or later (requirements.txt has 3.10) no session can be started. *)
Theorem C213_cannot_start_refuted axes colorbar patches : start (T := XR) false axes colorbar patches = Err TypeError.
Proof. reflexivity. Qed.

(* ---------------------------------------------------------------- C214 *)
Lemma loc_row_in (data : list rrow) d : NoDup (map fst data) -> In d data -> loc_row (map fin_r data) (fst d) = Ok (Fin (fst (snd d)), Fin (snd (snd d))).
Proof.
  induction data as [|r data IH]; intros ND I; [contradiction|]. inversion ND as [|? ? N ND']; subst. cbn [map loc_row fin_r fst].
  destruct I as [->|I]; [rewrite Z.eqb_refl; reflexivity|]. replace (Z.eqb (fst r) (fst d)) with false; [apply IH; assumption|].
  symmetry. apply Z.eqb_neq. intros E. apply N. rewrite E. apply in_map, I.
Qed.
(** The points that scatter_sample draws are, one for each sampled label in the labels' order, the datum of that label where the figure shows it; each lies in a
    box that was drawn. *)
Theorem C214_sample_drawn_in_boxes pick lx ly data bs others n d : fair pick -> NoDup (map fst data) -> (forall b, In b bs -> drawable lx ly b) ->
  all_present data others -> sample pick lx ly data bs others n = Ok d ->
  exists pts, scatter_sample lx ly (map fin_r data) d = Ok (map (fun p => (Fin (shown lx (fst (snd p))), Fin (shown ly (snd (snd p))))) pts)
  /\ map fst pts = s_indices d
  /\ forall p, In p pts -> In p data /\ exists b, In b bs /\ inside lx ly b p.
Proof.
  intros HF ND HD HP HS. destruct (C153_sampled_data pick lx ly data bs others n d HF ND HD HP HS) as (HI & _).
  unfold scatter_sample. assert (H : forall i, In i (s_indices d) -> exists r b, In r data /\ fst r = i /\ In b bs /\ inside lx ly b r).
  { intros i Hi. exact (proj2 (HI i Hi)). }
  clear HI HS. induction (s_indices d) as [|i l IH]; [exists []; split; [reflexivity|split; [reflexivity|intros p []]]|].
  destruct IH as (pts & E & K & Q); [intros j Hj; apply H; right; exact Hj|]. destruct (H i (or_introl eq_refl)) as (r & b & I1 & I2 & I3 & I4).
  exists (r :: pts). split; [|split; [cbn; congruence|intros p [<-|Hp]; [eauto|auto]]].
  cbn [mapM]. rewrite <- I2, (loc_row_in data r ND I1). cbn [bind].
  destruct (mapM (loc_row (map fin_r data)) l) as [ps|e]; [|discriminate E]. cbn [bind] in E |- *. apply ok_inj in E. cbn [map fst snd]. rewrite E. unfold shown.
  destruct lx, ly; rewrite ?exp10_fin; reflexivity.
Qed.

(* ---------------------------------------------------------------- instances *)
Definition ex_es : list (event (T := XR)) := [Box (fin_box (mkR 0 2 0 2)); Box (fin_box (mkR 5 6 5 6))].
Example C212_ex : exists s0 d, start (T := XR) true 2 true 0 = Ok s0 /\ open ex_es /\ foreign ex_es = 0%nat
  /\ sample_data first_n false false (map fin_r [(1%Z, (1, 1)%R)]) (boxes ex_es) None 3 None = Ok d /\ s_failed d <> [].
Proof.
  eexists. change (boxes ex_es) with (map fin_box [mkR 0 2 0 2; mkR 5 6 5 6]).
  destruct (sample first_n false false [(1%Z, (1, 1)%R)] [mkR 0 2 0 2; mkR 5 6 5 6] None 3) as [d|e] eqn:E; [|discriminate].
  exists d. split; [reflexivity|]. split; [intros o n [X|[X|[]]]; discriminate|]. split; [reflexivity|]. split; [exact E|].
  assert (D : forall b, In b [mkR 0 2 0 2; mkR 5 6 5 6] -> drawable false false b) by (intros b _; split; discriminate).
  assert (ND : NoDup (map fst [(1%Z, (1, 1)%R)])) by (repeat constructor; cbn; tauto).
  destruct (C153_sampled_data first_n false false _ _ None 3 d first_n_fair ND D ltac:(intros i []) E) as (_ & HFa & _).
  destruct (HFa (mkR 5 6 5 6) ltac:(cbn; auto)) as [_ X]. intros Y. rewrite Y in X. apply X. intros r [<-|[]] [[A _] _]. unfold shown in A. cbn in A. lra.
Qed.
Example C213_ex : start (T := XR) true 3 true 2 = Ok (mkSession 3 3 [] true None "Selection Info Will Appear Here") /\ open ex_es.
Proof. split; [reflexivity|]. intros o n [X|[X|[]]]; discriminate. Qed.
Example C214_ex : fair first_n /\ NoDup (map fst [(1%Z, (1, 1)%R)]) /\ exists d, sample first_n true false [(1%Z, (1, 1)%R)] [mkR 5 20 0 2] None 3 = Ok d.
Proof. split; [exact first_n_fair|]. split; [repeat constructor; cbn; tauto|]. rewrite sample_eq. eexists. reflexivity. Qed.
