(** Theorems about the tables of a Plasma: construction (C06-C09), dropping species (C05), estimating
    electrons in place (C23) and histories of set calls (C25). *)
From Coq Require Import List String Ascii Bool Arith ZArith Sorted Permutation Lia Reals Lra.
From Verif Require Import Py PyStr Sort Num Species SpeciesProofs Frame FrameProofs FrameProofs2 Plasma.
Import ListNotations.
Open Scope string_scope.
Open Scope py_scope.

(* ---------------------------------------------------------------- specification *)
(** The operations of a plasma's life, [set_data] by hand excepted. An operation that raises leaves the
    object as it was. *)
Inductive op (T : Type) :=
| OSetSC (sc : option (spacecraft T)) | OSetAux (a : option (frame T)) | ODrop (args : list pyarg).
Arguments OSetSC {T}. Arguments OSetAux {T}. Arguments ODrop {T}.

Section Spec.
  Context {T : Type} {A : Arith T}.
  Definition attempt (p : plasma T) (r : result (plasma T)) : plasma T :=
    match r with Ok q => q | Err _ => p end.
  Definition step (p : plasma T) (o : op T) : plasma T :=
    match o with
    | OSetSC sc => attempt p (set_spacecraft p sc)
    | OSetAux a => attempt p (set_aux p a)
    | ODrop args => attempt p (drop_species p args)
    end.
  Definition run (p : plasma T) (l : list (op T)) : plasma T := fold_left step l p.
  (** A plasma the library can hand out: constructed from comma-free species names, then any history. *)
  Definition reachable (p : plasma T) : Prop :=
    exists data sp sc aux p0 l, (forall s, In s sp -> has_char comma s = false) /\
      make_plasma data sp sc aux = Ok p0 /\ p = run p0 l.
  (** The rows [b] are the rows [a], with the same values in the columns [cols]. *)
  Definition rows_agree (cols : list key) (a b : list (Z * row T)) : Prop :=
    Forall2 (fun x y => fst x = fst y /\ forall k, In k cols -> snd x k = snd y k) a b.
  (** The columns a plasma of species [sp] keeps of a table. *)
  Definition plasma_column (sp : list string) (k : key) : Prop :=
    In (kM k) ["b"; "n"; "v"; "w"] /\ In (kC k) [""; "x"; "y"; "z"; "per"; "par"] /\ (In (kS k) sp \/ kS k = "").
  Definition aligned (p : plasma T) : Prop :=
    (forall sc, p_sc p = Some sc -> f_dt (sc_data sc) = true /\ f_index (sc_data sc) = f_index (p_data p)) /\
    (forall a, p_aux p = Some a -> f_dt a = true /\ f_index a = f_index (p_data p) /\
                 forall k, In k (f_cols a) -> ~ In k (f_cols (p_data p))).
End Spec.

Lemma reachable_wf {T} {A : Arith T} (p : plasma T) : reachable p -> wf p.
Proof.
  intros (data & sp & sc & aux & p0 & l & HC & HM & ->).
  destruct (make_plasma_inv data sp sc aux p0 HC HM) as [W _]. clear HM. revert p0 W.
  induction l as [|o l IH]; intros p0 W; [exact W|]. apply IH.
  destruct o as [sc'|a|args]; simpl.
  - destruct (set_spacecraft p0 sc') as [q|e] eqn:E; simpl; [|exact W]. exact (wf_set_spacecraft _ _ _ W E).
  - destruct (set_aux p0 a) as [q|e] eqn:E; simpl; [|exact W]. exact (wf_set_aux _ _ _ W E).
  - destruct (drop_species p0 args) as [q|e] eqn:E; simpl; [|exact W]. exact (wf_drop _ _ _ W E).
Qed.

(* ---------------------------------------------------------------- a concrete plasma *)
Definition ex_cols : list key :=
  [("b", "x", ""); ("b", "y", ""); ("b", "z", "")]
  ++ flat_map (fun s => [("n", "", s); ("v", "x", s); ("v", "y", s); ("v", "z", s); ("w", "par", s); ("w", "per", s)])
              ["p1"; "a"]
  ++ [("junk", "", ""); ("n", "", "o6")].
Definition ex_frame : frame XR :=
  mkFrame ex_cols true [(1%Z, fun _ => Fin 3); (2%Z, fun k => if String.eqb (kM k) "w" then NaN else Fin 5)].
Definition ex_aux : frame XR := mkFrame [("chisq", "", "")] true [(1%Z, fun _ => Fin 1); (2%Z, fun _ => Fin 2)].
Example ex_plasma : exists p, make_plasma ex_frame ["p1"; "a"] None (Some ex_aux) = Ok p /\
  p_species p = ["a"; "p1"] /\ List.length (f_cols (p_data p)) = 17%nat.
Proof. eexists. split; [vm_compute; reflexivity|]. split; reflexivity. Qed.
Example ex_reachable : exists p, reachable p /\ p_species p = ["a"; "p1"] /\ p_aux p = Some ex_aux.
Proof.
  destruct ex_plasma as [p [H [S _]]]. exists p. split; [|split; [exact S|]].
  - exists ex_frame, ["p1"; "a"], None, (Some ex_aux), p, []. repeat split; auto.
    intros s [<-|[<-|[]]]; reflexivity.
  - apply make_plasma_inv in H; [apply H|]. intros s [<-|[<-|[]]]; reflexivity.
Qed.

(* ================================================================ C05 *)
(** Dropping species from any plasma of any history: the result has the other species, exactly the
    columns of the remaining species and of no species, and the same values in them (the recomputed scalar
    thermal speeds included), the same spacecraft, and the auxiliary columns selected alike; ValueError if
    nothing would remain. *)
Theorem C05_drop_species :
  forall (T : Type) (A : Arith T) (p : plasma T) args dropped, reachable p ->
  chk_species (p_ions p) args = Ok dropped ->
  ((forall s, In s (p_species p) -> In s dropped) -> drop_species p args = Err ValueError) /\
  ((exists s, In s (p_species p) /\ ~ In s dropped) ->
    exists p', drop_species p args = Ok p' /\
      (forall s, In s (p_species p') <-> In s (p_species p) /\ ~ In s dropped) /\
      (forall k, In k (f_cols (p_data p')) <->
                 In k (f_cols (p_data p)) /\ (kS k = "" \/ In (kS k) (p_species p'))) /\
      rows_agree (f_cols (p_data p')) (f_rows (p_data p)) (f_rows (p_data p')) /\
      p_sc p' = p_sc p /\
      (p_aux p = None -> p_aux p' = None) /\
      (forall a, p_aux p = Some a -> exists a', p_aux p' = Some a' /\ f_rows a' = f_rows a /\
         forall k, In k (f_cols a') <-> In k (f_cols a) /\ (kS k = "" \/ In (kS k) (p_species p')))).
Proof.
  intros T A p args dropped R HC. pose proof (reachable_wf p R) as W.
  destruct (drop_species_inv p args dropped W HC) as [H1 H2].
  assert (FI : forall s, In s (filter (fun s => negb (mem_str s dropped)) (p_species p)) <->
                         In s (p_species p) /\ ~ In s dropped).
  { intros s. rewrite filter_In, negb_true_iff, mem_str_not. reflexivity. }
  assert (KM : forall sub k, keep_mask sub k = true <-> kS k = "" \/ In (kS k) sub).
  { intros sub k. unfold keep_mask. rewrite orb_true_iff, String.eqb_eq, mem_str_In. reflexivity. }
  split.
  - intros Hall. apply H1. destruct (filter _ (p_species p)) as [|s l] eqn:E; [reflexivity|exfalso].
    assert (Hs : In s (s :: l)) by (left; reflexivity). rewrite <- E, filter_In, negb_true_iff, mem_str_not in Hs.
    destruct Hs as [Hs1 Hs2]. exact (Hs2 (Hall s Hs1)).
  - intros [s Hs]. apply FI in Hs. destruct H2 as (p' & E & W' & SP & EC & ER & _ & SC & AX).
    { intros E. rewrite E in Hs. destruct Hs. }
    exists p'. split; [exact E|]. rewrite SP. split; [exact FI|]. split.
    { intros k. rewrite EC, filter_In, KM. reflexivity. }
    split; [exact ER|]. split; [exact SC|]. rewrite AX. unfold select_aux. split.
    + intros ->. reflexivity.
    + intros a ->. eexists. split; [reflexivity|]. split; [reflexivity|].
      intros k. rewrite f_select_In, KM. reflexivity.
Qed.
Print Assumptions C05_drop_species.
(** Asking to drop a species the plasma does not have is a ValueError and nothing is dropped. *)
Theorem C05_unknown_species :
  forall (T : Type) (A : Arith T) (p : plasma T) args e,
  chk_species (p_ions p) args = Err e -> drop_species p args = Err e.
Proof. intros T A p args e H. unfold drop_species. rewrite H. reflexivity. Qed.
Example C05_ex : exists (p p' : plasma XR), reachable p /\ drop_species p [PStr "a"] = Ok p' /\ p_species p' = ["p1"].
Proof.
  destruct ex_plasma as [p [H _]]. exists p. eexists. split; [|split].
  - exists ex_frame, ["p1"; "a"], None, (Some ex_aux), p, []. repeat split; auto.
    intros s [<-|[<-|[]]]; reflexivity.
  - vm_compute in H. injection H as <-. vm_compute. reflexivity.
  - reflexivity.
Qed.

(* ================================================================ C06 *)
Theorem C06_kept_columns :
  forall (T : Type) (A : Arith T) data sp sc aux (p : plasma T), (forall s, In s sp -> has_char comma s = false) ->
  make_plasma data sp sc aux = Ok p ->
  (forall s, In s (p_species p) <-> In s sp) /\
  (* exactly the plasma columns of the input, plus one scalar thermal speed per species with thermal speeds *)
  (forall k, In k (f_cols (p_data p)) <->
     (In k (f_cols data) /\ plasma_column sp k) \/
     (exists s c, k = ("w", "scalar", s) /\ (c = "par" \/ c = "per") /\
                  In ("w", c, s) (f_cols data) /\ plasma_column sp ("w", c, s))) /\
  NoDup (f_cols (p_data p)) /\
  (* every kept value is unchanged, row by row and in the same order *)
  rows_agree (filter (fun k => negb (String.eqb (kC k) "scalar")) (f_cols (p_data p))) (f_rows data) (f_rows (p_data p)).
Proof.
  intros T A data sp sc aux p HC HM. destruct (make_plasma_inv data sp sc aux p HC HM) as (W & ST & SP & _).
  assert (SI : forall s, In s (p_species p) <-> In s sp) by (intros s; rewrite SP; apply sort_In).
  assert (PC : forall k, in_slice (p_species p) k = true <-> plasma_column sp k).
  { intros k. rewrite in_slice_iff, SI. reflexivity. }
  split; [exact SI|]. split; [|split; [exact (st_nodup _ _ _ ST)|]].
  - intros k. rewrite (st_cols _ _ _ ST), PC. split.
    + intros [H|[H [c [Hc [H1 H2]]]]]; [auto|]. right. exists (kS k), c. rewrite PC in H2.
      repeat split; auto; try apply H2. destruct k as [[m c'] s], H as [HM' HC']. unfold kM, kC in *. simpl in *. subst. reflexivity.
    + intros [H|(s & c & -> & Hc & H1 & H2)]; [auto|]. right. split; [split; reflexivity|].
      exists c. rewrite PC. auto.
  - destruct (st_rows _ _ _ ST) as [kept [_ E]]. rewrite E. unfold rows_agree.
    set (cols := filter _ _).
    assert (NS : forall k, In k cols -> ~ is_scalar k).
    { intros k Hk [_ Hs]. unfold cols in Hk. apply filter_In in Hk as [_ Hk]. rewrite Hs in Hk. discriminate. }
    clearbody cols. clear -NS. induction (f_rows data) as [|[z r] l IH]; simpl; [constructor|].
    constructor; [|exact IH]. simpl. split; [reflexivity|]. intros k Hk. symmetry. apply add_scalar_other, NS, Hk.
Qed.
Print Assumptions C06_kept_columns.

(** A table with rows, the field, and the six columns of every species is accepted, whatever else it
    holds... *)
Theorem C06_complete_table_accepted :
  forall (T : Type) (A : Arith T) (data : frame T) sp, sp <> [] ->
  (forall s, In s sp -> has_char comma s = false /\ has_char plus s = false) -> f_rows data <> [] ->
  (forall c, In c ["x"; "y"; "z"] -> In ("b", c, "") (f_cols data)) ->
  (forall s, In s sp -> forall k, In k [("n", "", s); ("v", "x", s); ("v", "y", s); ("v", "z", s);
                                        ("w", "par", s); ("w", "per", s)] -> In k (f_cols data)) ->
  exists p, make_plasma data sp None None = Ok p.
Proof.
  intros T A data sp HN HC HR HB HI.
  assert (HN' : sort_str sp <> []).
  { intros E. apply HN. destruct sp as [|x l]; [reflexivity|exfalso].
    assert (Hx : In x (sort_str (x :: l))) by (apply sort_In; left; reflexivity). rewrite E in Hx. destruct Hx. }
  assert (HS : forall s, In s (sort_str sp) -> In s sp) by (intros s; rewrite sort_In; auto).
  assert (CP : complete (sort_str sp) data) by (split; auto; intros s Hs; apply HI, HS, Hs).
  destruct (complete_ok _ _ CP) as [d Hd]. pose proof (set_data_stored _ _ _ Hd) as ST.
  unfold make_plasma.
  assert (E1 : clean_species_for_setting sp = Ok (sort_str sp)).
  { apply clean_ok. repeat split; auto. intros s Hs; apply HC, Hs. }
  rewrite E1. cbn [bind]. rewrite Hd. cbn [bind].
  destruct (set_ions_ok (sort_str sp) d (stored_rows_ne _ _ _ ST) HN' (st_b _ _ _ ST)) as [I1 _].
  { intros s Hs. apply HC, HS, Hs. }
  { intros s E. apply HC, HS. rewrite E. left; reflexivity. }
  rewrite (proj2 I1).
  - cbn [bind set_spacecraft sc_check]. eexists; reflexivity.
  - split; [exact (stored_rows_ne _ _ _ ST)|exact HN'| |exact (st_b _ _ _ ST)].
    intros s Hs k Hk. apply (st_cols _ _ _ ST). left. split; [apply (HI s (HS s Hs) k Hk)|].
    exact (ion_required_slice _ s k Hs Hk).
Qed.
Print Assumptions C06_complete_table_accepted.

(** ... and a table lacking one of the needed labels altogether is a KeyError. *)
Theorem C06_missing_label :
  forall (T : Type) (A : Arith T) (data : frame T) sp sc aux, sp <> [] ->
  (forall s, In s sp -> has_char plus s = false) -> f_rows data <> [] -> f_cols data <> [] ->
  (exists m, In m ["b"; "n"; "v"; "w"] /\ forall k, In k (f_cols data) -> kM k <> m) \/
  (exists c, In c [""; "x"; "y"; "z"; "per"; "par"] /\ forall k, In k (f_cols data) -> kC k <> c) \/
  (exists s, (In s sp \/ s = "") /\ forall k, In k (f_cols data) -> kS k <> s) ->
  make_plasma data sp sc aux = Err KeyError.
Proof.
  intros T A data sp sc aux HN HP HR HK H. unfold make_plasma.
  assert (E1 : clean_species_for_setting sp = Ok (sort_str sp)) by (apply clean_ok; auto).
  rewrite E1. cbn [bind]. unfold plasma_set_data.
  assert (E0 : f_empty data = false).
  { unfold f_empty. destruct (f_cols data); [contradiction|]. destruct (f_rows data); [contradiction|reflexivity]. }
  rewrite E0.
  assert (L : forall get x, (forall k, In k (f_cols data) -> get k <> x) -> has_label get x (f_cols data) = false).
  { intros get x Hx. destruct (has_label get x (f_cols data)) eqn:E; [|reflexivity].
    apply has_label_In in E as [k [Hk Ek]]. exfalso. exact (Hx k Hk Ek). }
  assert (ES : slice_ok (sort_str sp) (f_cols data) = false).
  { apply not_true_iff_false. unfold slice_ok. rewrite !andb_true_iff, !forallb_forall. intros [[F1 F2] F3].
    destruct H as [(m & Hm & Hx)|[(c & Hc & Hx)|(s & Hs & Hx)]].
    - specialize (F1 m Hm). rewrite L in F1 by exact Hx. discriminate.
    - specialize (F2 c Hc). rewrite L in F2 by exact Hx. discriminate.
    - assert (In s (sort_str sp ++ [""])).
      { apply in_or_app. rewrite sort_In. destruct Hs as [Hs| ->]; [left; exact Hs|right; left; reflexivity]. }
      specialize (F3 s H). rewrite L in F3 by exact Hx. discriminate. }
  rewrite ES. reflexivity.
Qed.
Print Assumptions C06_missing_label.
Example C06_ex : make_plasma ex_frame ["a"; "p2"] None None = Err KeyError.
Proof. vm_compute. reflexivity. Qed.

(* ================================================================ C07 *)
Open Scope R_scope.
(** In every row of every plasma: the square of the scalar thermal speed is the trace average, so it lies
    between the two components. *)
Theorem C07_scalar_thermal_speed :
  forall (p : plasma XR) s z r a b, reachable p -> In s (p_species p) -> In (z, r) (f_rows (p_data p)) ->
  r ("w", "par", s) = Fin a -> r ("w", "per", s) = Fin b ->
  In ("w", "scalar", s) (f_cols (p_data p)) /\
  exists w, r ("w", "scalar", s) = Fin w /\ 0 <= w /\ w ^ 2 = (2 * b ^ 2 + a ^ 2) / 3 /\
  (0 <= a -> 0 <= b -> Rmin a b <= w <= Rmax a b /\ (a = b -> w = a)).
Proof.
  intros p s z r a b R Hs Hr Ha Hb. pose proof (reachable_wf p R) as W. destruct (wf_stored _ W) as [new ST].
  assert (C1 : In ("w", "par", s) (f_cols (p_data p))).
  { apply (cp_ions _ _ (wf_complete _ W) s Hs). unfold ion_required. simpl. tauto. }
  assert (C2 : In ("w", "per", s) (f_cols (p_data p))).
  { apply (cp_ions _ _ (wf_complete _ W) s Hs). unfold ion_required. simpl. tauto. }
  split.
  { apply (st_cols _ _ _ ST). right. split; [split; reflexivity|]. exists "par". split; [auto|].
    apply (st_cols _ _ _ ST) in C1 as [C1|[[_ C1] _]]; [exact C1|discriminate]. }
  rewrite (stored_scalar_value _ _ _ z r s ST Hr).
  rewrite (w_scalar_fin _ s r a b (wl_two _ s (st_sorted _ _ _ ST) (st_nodup _ _ _ ST) C1 C2) Ha Hb).
  eexists. split; [reflexivity|]. split; [apply sqrt_pos|].
  assert (Q : 0 <= (a * a + 2 * (b * b)) / 3) by nra.
  assert (SQ : sqrt ((a * a + 2 * (b * b)) / 3) ^ 2 = (2 * b ^ 2 + a ^ 2) / 3).
  { replace (sqrt ((a * a + 2 * (b * b)) / 3) ^ 2) with (sqrt ((a * a + 2 * (b * b)) / 3) * sqrt ((a * a + 2 * (b * b)) / 3)) by ring.
    rewrite sqrt_sqrt by exact Q. field. }
  split; [exact SQ|]. intros Pa Pb. pose proof (sqrt_pos ((a * a + 2 * (b * b)) / 3)) as P.
  set (w := sqrt ((a * a + 2 * (b * b)) / 3)) in *. clearbody w.
  split.
  - unfold Rmin, Rmax. destruct (Rle_dec a b); split; apply Rsqr_incr_0_var; unfold Rsqr; nra.
  - intros ->. apply Rsqr_inj; unfold Rsqr; nra.
Qed.
Print Assumptions C07_scalar_thermal_speed.

(* ================================================================ C08 *)
(** What the code does with missing components, in every row of every plasma. *)
Theorem C08_missing_components_partial :
  forall (p : plasma XR) s z r, reachable p -> In s (p_species p) -> In (z, r) (f_rows (p_data p)) ->
  (r ("w", "par", s) = NaN -> r ("w", "per", s) = NaN -> r ("w", "scalar", s) = Fin 0) /\
  (forall b, r ("w", "par", s) = NaN -> r ("w", "per", s) = Fin b -> r ("w", "scalar", s) = Fin (sqrt (2 * (b * b) / 3))) /\
  (forall a, r ("w", "par", s) = Fin a -> r ("w", "per", s) = NaN -> r ("w", "scalar", s) = Fin (sqrt (a * a / 3))).
Proof.
  intros p s z r R Hs Hr. pose proof (reachable_wf p R) as W. destruct (wf_stored _ W) as [new ST].
  assert (C1 : In ("w", "par", s) (f_cols (p_data p))).
  { apply (cp_ions _ _ (wf_complete _ W) s Hs). unfold ion_required. simpl. tauto. }
  assert (C2 : In ("w", "per", s) (f_cols (p_data p))).
  { apply (cp_ions _ _ (wf_complete _ W) s Hs). unfold ion_required. simpl. tauto. }
  pose proof (wl_two _ s (st_sorted _ _ _ ST) (st_nodup _ _ _ ST) C1 C2) as WL.
  rewrite (stored_scalar_value _ _ _ z r s ST Hr). split; [|split].
  - intros Ha Hb. exact (w_scalar_both_nan _ s r WL Ha Hb).
  - intros b Ha Hb. exact (w_scalar_par_nan _ s r b WL Ha Hb).
  - intros a Ha Hb. exact (w_scalar_per_nan _ s r a WL Ha Hb).
Qed.
Print Assumptions C08_missing_components_partial.

(** So the claim is false of the code: a plasma with a missing thermal speed whose scalar thermal speed
    is the number 0. *)
Theorem C08_missing_speed_stays_missing_refuted :
  exists (p : plasma XR) s z r, reachable p /\ In s (p_species p) /\ In (z, r) (f_rows (p_data p)) /\
    r ("w", "par", s) = NaN /\ r ("w", "per", s) = NaN /\ r ("w", "scalar", s) = Fin 0.
Proof.
  destruct ex_plasma as [p [H [S _]]].
  assert (HC : forall s, In s ["p1"; "a"] -> has_char comma s = false) by (intros s [<-|[<-|[]]]; reflexivity).
  assert (R : reachable p).
  { exists ex_frame, ["p1"; "a"], None, (Some ex_aux), p, []. auto. }
  destruct (make_plasma_inv _ _ _ _ _ HC H) as (W & ST & _).
  destruct (st_rows _ _ _ ST) as [kept [_ E]].
  exists p, "a", 2%Z, (add_scalar kept (fun k => if String.eqb (kM k) "w" then NaN else Fin 5)).
  assert (HI : In (2%Z, add_scalar kept (fun k => if String.eqb (kM k) "w" then NaN else Fin 5)) (f_rows (p_data p))).
  { rewrite E. simpl. right. left. reflexivity. }
  split; [exact R|]. split; [rewrite S; left; reflexivity|]. split; [exact HI|].
  assert (E1 : add_scalar kept (fun k => if String.eqb (kM k) "w" then NaN else Fin 5) ("w", "par", "a") = NaN).
  { rewrite add_scalar_other; [reflexivity|]. intros [_ X]. discriminate. }
  assert (E2 : add_scalar kept (fun k => if String.eqb (kM k) "w" then NaN else Fin 5) ("w", "per", "a") = NaN).
  { rewrite add_scalar_other; [reflexivity|]. intros [_ X]. discriminate. }
  split; [exact E1|]. split; [exact E2|].
  assert (HA : In "a" (p_species p)) by (rewrite S; left; reflexivity).
  exact (proj1 (C08_missing_components_partial p "a" 2%Z _ R HA HI) E1 E2).
Qed.
Print Assumptions C08_missing_speed_stays_missing_refuted.

(* ================================================================ C09 *)
Theorem C09_setting_own_data :
  forall (T : Type) (A : Arith T) (p : plasma T), reachable p ->
  exists p', call_set_data p (p_data p) = Ok p' /\
    f_cols (p_data p') = f_cols (p_data p) /\
    rows_agree (f_cols (p_data p)) (f_rows (p_data p)) (f_rows (p_data p')) /\
    p_species p' = p_species p /\ p_sc p' = p_sc p /\ p_aux p' = p_aux p.
Proof.
  intros T A p R. destruct (set_same p (reachable_wf p R)) as (p' & E & H1 & H2 & H3 & H4 & _ & H5 & H6).
  exists p'. auto 10.
Qed.
Print Assumptions C09_setting_own_data.

(* ================================================================ C23, in place *)
Theorem C23_in_place_adds_only_electrons :
  forall (T : Type) (A : Arith T) (K : consts T) (p : plasma T) f, reachable p ->
  estimate_electrons K (p_ions p) (p_species p) = Ok f ->
  exists p', estimate_electrons_inplace K p = Ok p' /\
    (forall s, In s (p_species p') <-> In s (p_species p) \/ s = "e") /\
    (* the columns: the old ones, the six electron columns and the scalar electron thermal speed *)
    (forall k, In k (f_cols (p_data p')) <-> In k (f_cols (p_data p)) \/
       In k [("n", "", "e"); ("v", "x", "e"); ("v", "y", "e"); ("v", "z", "e"); ("w", "par", "e"); ("w", "per", "e");
             ("w", "scalar", "e")]) /\
    (* row by row: old values unchanged, electron values as estimated *)
    Forall2 (fun a b => fst a = fst b /\ (forall k, In k (f_cols (p_data p)) -> snd b k = snd a k) /\
               snd b ("n", "", "e") = el_n (f (snd a)) /\
               (snd b ("v", "x", "e"), snd b ("v", "y", "e"), snd b ("v", "z", "e")) = el_v (f (snd a)) /\
               snd b ("w", "par", "e") = el_w (f (snd a)) /\ snd b ("w", "per", "e") = el_w (f (snd a)))
            (f_rows (p_data p)) (f_rows (p_data p')) /\
    p_sc p' = p_sc p /\ p_aux p' = p_aux p.
Proof.
  intros T A K p f R Hf. destruct (inplace_inv K p f (reachable_wf p R) Hf) as
    (p' & E & SP & _ & SC & AX & _ & _ & COLS & ROWS & _).
  exists p'. split; [exact E|]. split.
  { intros s. rewrite SP, sort_In, in_app_iff. simpl. intuition. }
  split. { intros k. rewrite COLS. unfold electron_cols. simpl. intuition. }
  split; [|auto].
  eapply Forall2_impl_strong; [|exact ROWS]. intros a b (H1 & H2 & H3). repeat split; auto.
  - rewrite (H3 ("n", "", "e")) by (unfold electron_cols; simpl; tauto). reflexivity.
  - rewrite (H3 ("v", "x", "e")), (H3 ("v", "y", "e")), (H3 ("v", "z", "e")) by (unfold electron_cols; simpl; tauto).
    unfold with_electrons. simpl. destruct (el_v (f (snd a))) as [[x y] z]. reflexivity.
  - rewrite (H3 ("w", "par", "e")) by (unfold electron_cols; simpl; tauto). reflexivity.
  - rewrite (H3 ("w", "per", "e")) by (unfold electron_cols; simpl; tauto). reflexivity.
Qed.
Print Assumptions C23_in_place_adds_only_electrons.

(* ================================================================ C25 *)
Theorem C25_accepted_exactly_when_aligned :
  forall (T : Type) (A : Arith T) (p : plasma T) sc aux,
  ((exists p', set_spacecraft p (Some sc) = Ok p') <->
     f_dt (sc_data sc) = true /\ f_index (sc_data sc) = f_index (p_data p)) /\
  ((exists p', set_aux p (Some aux) = Ok p') <->
     f_dt aux = true /\ f_index aux = f_index (p_data p) /\
     forall k, In k (f_cols aux) -> ~ In k (f_cols (p_data p))).
Proof.
  intros T A p sc aux. split; split.
  - intros [p' H]. apply set_spacecraft_ok in H as [H _].
    exact (proj1 (sc_check_ok _ _) H sc eq_refl).
  - intros H. eexists. apply set_spacecraft_ok. split; [|reflexivity]. apply sc_check_ok.
    intros sc' E. inversion E; subst; exact H.
  - intros [p' H]. apply set_aux_ok in H as [H _]. exact (proj1 (aux_check_ok _ _) H aux eq_refl).
  - intros H. eexists. apply set_aux_ok. split; [|reflexivity]. apply aux_check_ok.
    intros a E. inversion E; subst; exact H.
Qed.
Print Assumptions C25_accepted_exactly_when_aligned.

(** After any history of constructing, setting and dropping, accepted or rejected, the auxiliary and
    spacecraft data are aligned with the plasma. *)
Theorem C25_aligned_in_every_history :
  forall (T : Type) (A : Arith T) (p : plasma T), reachable p -> aligned p.
Proof. intros T A p R. pose proof (reachable_wf p R) as W. split; [apply (wf_sc _ W)|apply (wf_aux _ W)]. Qed.
Print Assumptions C25_aligned_in_every_history.

(** But [set_data] called on a plasma does not look at the auxiliary data: they end up misaligned. *)
Theorem C25_set_data_misaligns_refuted :
  exists (p p' : plasma XR) new, reachable p /\ call_set_data p new = Ok p' /\ ~ aligned p'.
Proof.
  destruct ex_plasma as [p [H _]]. exists p.
  set (new := mkFrame ex_cols true [(7%Z, fun _ => Fin 3)]).
  assert (E : exists p', call_set_data p new = Ok p' /\ p_aux p' = Some ex_aux /\ f_index (p_data p') = [7%Z]).
  { vm_compute in H. injection H as <-. eexists. split; [vm_compute; reflexivity|]. split; reflexivity. }
  destruct E as (p' & E & EA & EI). exists p', new. split; [|split; [exact E|]].
  - exists ex_frame, ["p1"; "a"], None, (Some ex_aux), p, []. repeat split; auto.
    intros s [<-|[<-|[]]]; reflexivity.
  - intros [_ HA]. destruct (HA ex_aux EA) as (_ & HI & _). rewrite EI in HI. discriminate.
Qed.
Print Assumptions C25_set_data_misaligns_refuted.
