(** Further theorems, most of them found missing by mutating the model: which inputs are refused and how, the tabulated numbers, and what
    an AlfvenicTurbulence object is built from. *)
From Coq Require Import List String Ascii Bool Arith ZArith Reals Lra Lia Psatz.
From Verif Require Import Py PyStr Sort Num Species Frame Plasma PlasmaProofs FrameProofs Spacecraft Vector VectorThms Alfven AlfvenThms Tools ToolsThms Instability InstabilityThms Abund AbundData AbundThms FitCore TrendFit TexInfo TexInfoThms Activity Loader.
Import ListNotations.
Open Scope R_scope.

(* ------------------------------------------------------------------ C136: Vector *)
Theorem C136_vector_validation : forall cols nrows,
  (vector_set_data cols nrows = Ok tt <-> nrows <> 0%nat /\ In "x"%string cols /\ In "y"%string cols /\ In "z"%string cols)
  /\ (vector_set_data cols nrows <> Ok tt -> vector_set_data cols nrows = Err ValueError).
Proof.
  intros cols n. assert (E : forallb (fun c => mem_str c cols) ["x"; "y"; "z"]%string = true <-> In "x"%string cols /\ In "y"%string cols /\ In "z"%string cols).
  { cbn [forallb]. rewrite !andb_true_iff, !mem_str_In. tauto. }
  unfold vector_set_data. destruct cols as [|c cols]; [split; [split; [discriminate|intros [_ [[] _]]]|reflexivity]|]. cbn [orb].
  destruct (Nat.eqb_spec n 0) as [-> |N]; [split; [split; [discriminate|intros [H _]; contradiction]|reflexivity]|].
  destruct (forallb _ _); [split; [split; [intros _; split; [exact N|apply E; reflexivity]|reflexivity]|intro H; contradict H; reflexivity]|].
  split; [split; [discriminate|intros [_ H]; apply E in H; discriminate]|reflexivity].
Qed.
Example C136_ex : vector_set_data ["z"; "x"; "y"; "n"]%string 3 = Ok tt /\ vector_set_data ["x"; "y"]%string 3 = Err ValueError. Proof. split; reflexivity. Qed.

(* ------------------------------------------------------------------ C42: what swap_protons refuses *)
(** KeyError without any p1 (p2) column; AttributeError if the density of a proton is missing or has components; else it succeeds. *)
Definition one_density (cols : list key) (s : string) : Prop :=
  In ("n", "", s)%string cols /\ forall k, In k cols -> kS k = s -> kM k = "n"%string -> kC k = ""%string.
Theorem C42_refusals : forall (d : frame XR),
  ((~ exists k, In k (f_cols d) /\ kS k = "p1"%string) \/ (~ exists k, In k (f_cols d) /\ kS k = "p2"%string) -> swap_protons d = Err KeyError)
  /\ ((exists k, In k (f_cols d) /\ kS k = "p1"%string) -> (exists k, In k (f_cols d) /\ kS k = "p2"%string) ->
      (~ (one_density (f_cols d) "p1" /\ one_density (f_cols d) "p2") -> swap_protons d = Err AttributeError)
      /\ (one_density (f_cols d) "p1" /\ one_density (f_cols d) "p2" -> exists out, swap_protons d = Ok out)).
Proof.
  intro d. assert (HL : forall s, has_label kS s (f_cols d) = true <-> exists k, In k (f_cols d) /\ kS k = s).
  { intro s. unfold has_label. rewrite existsb_exists. split; intros [k [I E]]; exists k; (split; [exact I|]); apply String.eqb_eq; auto. }
  assert (OD : forall s, (mem_key ("n", "", s)%string (f_cols d) && forallb (fun k => negb (of_species s k && String.eqb (kM k) "n") || String.eqb (kC k) "") (f_cols d)) = true <-> one_density (f_cols d) s).
  { intro s. rewrite andb_true_iff, forallb_forall, mem_key_In. unfold one_density, of_species. split; intros [H1 H2]; (split; [exact H1|]); intros k I.
    - intros E1 E2. specialize (H2 k I). rewrite (proj2 (String.eqb_eq _ _) E1), (proj2 (String.eqb_eq _ _) E2) in H2. apply String.eqb_eq, H2.
    - destruct (String.eqb_spec (kS k) s); [|reflexivity]. destruct (String.eqb_spec (kM k) "n"); [|reflexivity]. cbn. apply String.eqb_eq. apply H2; assumption. }
  unfold swap_protons. split.
  - intro H. destruct (has_label kS "p1" (f_cols d)) eqn:E1; [|reflexivity]. cbn [negb]. destruct (has_label kS "p2" (f_cols d)) eqn:E2; [|reflexivity]. exfalso. destruct H as [H|H]; apply H; apply HL; assumption.
  - intros H1 H2. apply HL in H1. apply HL in H2. rewrite H1, H2. cbn [negb]. cbn [forallb]. split.
    + intro N. match goal with |- (if negb ?b then _ else _) = _ => destruct b eqn:B; [|reflexivity] end. exfalso. apply N. apply andb_true_iff in B. destruct B as [B1 B2]. rewrite andb_true_r in B2. split; apply OD; assumption.
    + intros [D1 D2]. apply OD in D1. apply OD in D2. rewrite D1, D2. cbn [andb negb]. eexists. reflexivity.
Qed.

(* ------------------------------------------------------------------ C44/C43: the published numbers *)
(** Verscharen et al. (2016), table 1: the threshold is 1 + a / (beta - c)^b with (a, b, c) = *)
Definition published (g : Z) (i : inst) : option (R * R * R) :=
  match g, i with
  | (-4)%Z, AIC => Some (0.367, 0.364, 0.011)
  | (-4)%Z, FMW => Some (-0.408, 0.529, 0.410)
  | (-4)%Z, MM  => Some (0.702, 0.674, -0.009)
  | (-4)%Z, OFI => Some (-1.454, 1.023, -0.178)
  | (-3)%Z, AIC => Some (0.437, 0.428, -0.003)
  | (-3)%Z, FMW => Some (-0.497, 0.566, 0.543)
  | (-3)%Z, MM  => Some (0.801, 0.763, -0.063)
  | (-3)%Z, OFI => Some (-1.390, 1.005, -0.111)
  | (-2)%Z, AIC => Some (0.649, 0.400, 0)
  | (-2)%Z, FMW => Some (-0.647, 0.583, 0.713)
  | (-2)%Z, MM  => Some (1.040, 0.633, -0.012)
  | (-2)%Z, OFI => Some (-1.447, 1.000, -0.148)
  | _, _ => None
  end.
Lemma known_rate g i : published g i = None -> ~ In g [-4; -3; -2]%Z.
Proof. intros H [<-|[<-|[<-|[]]]]; destruct i; discriminate. Qed.
Lemma unknown_rate {X} (f : inst -> option X) g i : ~ In g [-4; -3; -2]%Z -> published g i = None /\ insta_params g i = None.
Proof.
  intros N. destruct g as [|q|q]; [split; reflexivity|split; reflexivity|]. destruct q as [[q|q|]|[q|q|]|]; try (split; reflexivity); try (exfalso; apply N; cbn; tauto).
  destruct q; try (split; reflexivity). exfalso. apply N. cbn. tauto.
Qed.
Theorem C44_published_thresholds : forall g i,
  (forall a b c beta, published g i = Some (a, b, c) -> c < beta -> exists p, insta_params g i = Some p /\ beta_ani_inst p (Fin beta) = Fin (1 + a / Rpower (beta - c) b))
  /\ (In g [-4; -3; -2]%Z <-> exists p, insta_params g i = Some p) /\ (published g i = None <-> insta_params g i = None).
Proof.
  intros g i.
  assert (K : forall x y z a b c beta, Some (Zq x, Zq y, Zq z) = Some (a, b, c) -> c < beta -> beta_ani_inst (x, y, z) (Fin beta) = Fin (1 + a / Rpower (beta - c) b)).
  { intros x y z a b c beta E L. apply (f_equal (fun o => match o with Some p => p | None => (0, 0, 0) end)) in E. cbv beta iota in E.
    pose proof (f_equal (fun p => fst (fst p)) E) as Ea. pose proof (f_equal (fun p => snd (fst p)) E) as Eb. pose proof (f_equal snd E) as Ec. cbn [fst snd] in Ea, Eb, Ec.
    rewrite threshold_value by (cbn [pole]; lra). f_equal. cbn [threshold]. rewrite Ea, Eb, Ec. reflexivity. }
  assert (Q : forall x y z a b c a' b' c' : R, x = a -> y = b -> z = c -> Some (x, y, z) = Some (a', b', c') -> Some (a, b, c) = Some (a', b', c')) by (intros; subst; assumption).
  split; [|split].
  - intros a b c beta H L. destruct (In_dec Z.eq_dec g [-4; -3; -2]%Z) as [[<-|[<-|[<-|[]]]]|N]; [| | |exfalso; rewrite (proj1 (unknown_rate (fun _ => @None nat) g i N)) in H; discriminate];
      destruct i; cbn [published] in H; eexists; (split; [reflexivity|]); apply K; try exact L; (refine (Q _ _ _ _ _ _ _ _ _ _ _ _ H); unfold Zq; lra).
  - split; [intros [<-|[<-|[<-|[]]]]; destruct i; eexists; reflexivity|]. intros [p H]. destruct (In_dec Z.eq_dec g [-4; -3; -2]%Z) as [I|N]; [exact I|].
    rewrite (proj2 (unknown_rate (fun _ => @None nat) g i N)) in H. discriminate.
  - split; intro H; destruct (In_dec Z.eq_dec g [-4; -3; -2]%Z) as [I|N]; try apply (unknown_rate (fun _ => @None nat) g i N); exfalso; destruct I as [<-|[<-|[<-|[]]]]; destruct i; discriminate.
Qed.
(** An unknown growth rate is a KeyError. *)
Theorem C43_unknown_growth_rate : forall b g (rows : list (XR * XR)), ~ In g [-4; -3; -2]%Z -> stability b g rows = Err KeyError.
Proof. intros b g rows N. unfold stability. rewrite !(proj2 (unknown_rate (fun _ => @None nat) g _ N)). reflexivity. Qed.
(** The names of the bins. *)
Theorem C43_bin_names : map (fun b => find (fun e => Z.eqb (fst e) b) stability_map) [4; 3; 2; 1; 0]%Z =
  [Some (4%Z, "MM"); Some (3%Z, "Between AIC & MM"); Some (2%Z, "Stable"); Some (1%Z, "Between FMW & OFI"); Some (0%Z, "OFI")]%string.
Proof. reflexivity. Qed.
(** The rows of the legend carry, in order, the names of the four instabilities; the markers follow another order: only the last row agrees. *)
Theorem C94_legend_rows : forall n label i, nth_error legend_row_labels n = Some label -> nth_error legend_column n = Some (Some i) ->
  (label = inst_name i <-> i = OFI) /\ In (n, label) [(1%nat, "AIC"); (2%nat, "FMW"); (3%nat, "MM"); (4%nat, "OFI")]%string
  /\ In (label, i) [("AIC", MM); ("FMW", AIC); ("MM", FMW); ("OFI", OFI)]%string /\ In (i, inst_name i) [(AIC, "AIC"); (FMW, "FMW"); (MM, "MM"); (OFI, "OFI")]%string.
Proof.
  intros n label i H1 H2. destruct n as [|n]; [discriminate H2|].
  do 4 (destruct n as [|n]; [cbn in H1, H2; injection H1 as <-; injection H2 as <-; split; [split; [intro E; try reflexivity; discriminate E|intro E; try reflexivity; discriminate E]|cbn; tauto]|]).
  cbn in H1. destruct n; discriminate.
Qed.

(* ------------------------------------------------------------------ C45, C95: abundances *)
(** A key that names two rows is refused. *)
Theorem C45_ambiguous_key : forall r key kind e1 e2 l1 l2 l3, r_table r = (l1 ++ e1 :: l2 ++ e2 :: l3)%list -> names key e1 -> names key e2 ->
  In kind ["Photosphere"; "CI_chondrites"; "Meteorites"]%string -> get_element (T := XR) r key kind = Err AssertionError.
Proof.
  intros r key kind e1 e2 l1 l2 l3 E N1 N2 K. unfold get_element. rewrite E, filter_app. cbn [filter]. rewrite (proj2 (matches_names key e1) N1), filter_app. cbn [filter]. rewrite (proj2 (matches_names key e2) N2).
  assert (V : negb (String.eqb (resolve_kind kind) "Photosphere" || String.eqb (resolve_kind kind) "CI_chondrites") = false) by (destruct K as [<-|[<-|[<-|[]]]]; reflexivity). rewrite V.
  destruct key as [z|s|]; [| |contradiction N1]; (match goal with |- context [filter ?f l1] => destruct (filter f l1) as [|x [|y q]]; cbn [app]; destruct (filter f l2); reflexivity end).
Qed.
(** Comments exist for 2021 only: there every non-empty comment of a row is returned, and a key that is neither text nor number is a ValueError. *)
Theorem C95_comments_by_year :
  (forall r key, library (PInt 2009) = Ok r -> get_comment r key = Ok None)
  /\ (forall r, library (PInt 2021) = Ok r -> get_comment r POther = Err ValueError
      /\ forall key e c, In e (r_table r) -> names key e -> e_comment e = Some c -> c <> ""%string -> get_comment r key = Ok (Some c)).
Proof.
  split.
  - intros r key H. unfold library, make_reference in H. cbn in H. injection H as <-. reflexivity.
  - intros r H. destruct (C45_shipped_tables _ _ H) as (K & _). assert (HC : r_has_comments r = true) by (unfold library, make_reference in H; cbn [Z.eqb Pos.eqb] in H; injection H as <-; reflexivity).
    unfold get_comment. rewrite HC. cbn [negb]. split; [reflexivity|]. intros key e c I N C NE. rewrite (filter_one key _ e K I N), C. destruct key as [z|s|]; [| |contradiction N]; destruct c; (reflexivity || contradiction).
Qed.
Example C95_by_year_ex : exists r e c, library (PInt 2021) = Ok r /\ In e (r_table r) /\ e_comment e = Some c /\ c <> ""%string.
Proof.
  eexists. assert (X : exists e c, find (fun e => match e_comment e with Some (String _ _) => true | _ => false end) asplund2021 = Some e /\ e_comment e = Some c /\ c <> ""%string) by (eexists; eexists; split; [vm_compute; reflexivity|split; [reflexivity|discriminate]]).
  destruct X as [e [c [F [C N]]]]. exists e, c. split; [reflexivity|]. split; [apply (find_some _ _ F)|]. auto.
Qed.

(* ------------------------------------------------------------------ C104: a trend needs fits *)
Theorem C104_trend_refusals : forall logx ykey wkey (t : trend (T := XR)),
  (t_ffuncs t = [] -> trend_obs logx ykey wkey t = Err ValueError)
  /\ ((exists kf, In kf (t_ffuncs t) /\ ff_popt (snd kf) = None) -> trend_obs logx ykey wkey t = Err AttributeError).
Proof.
  intros logx ykey wkey t. unfold trend_obs, popt_1d. split.
  - intros ->. reflexivity.
  - intros [kf [I N]]. match goal with |- bind ?m _ = _ => assert (E : m = Err AttributeError) end; [|rewrite E; reflexivity].
    induction (t_ffuncs t) as [|a l IH]; [destruct I|]. cbn [mapM]. destruct I as [-> |I]; [rewrite N; reflexivity|]. destruct (ff_popt (snd a)); [|reflexivity]. cbn [bind]. rewrite (IH I). reflexivity.
Qed.

(* ------------------------------------------------------------------ C58, C105: annotations *)
Theorem C58_unbalanced_rejected : forall x, ~ balanced x -> check_math x = Err ValueError.
Proof.
  intros x N. unfold check_math. destruct (Nat.eqb_spec (dollars x) 0) as [E|E]; [exfalso; apply N; unfold balanced; rewrite E; exists 0%nat; reflexivity|].
  destruct (Nat.even (dollars x)) eqn:V; [|reflexivity]. exfalso. apply N. apply Nat.even_spec, V.
Qed.
Lemma lookup_none {V} k (d : list (string * V)) : lookup k d = None <-> ~ In k (map fst d).
Proof.
  induction d as [|[a v] d IH]; [split; [intros _ []|reflexivity]|]. cbn [lookup map fst]. destruct (String.eqb_spec a k) as [-> |N]; [split; [discriminate|intro H; contradict H; left; reflexivity]|].
  rewrite IH. split; [intros H [E|I]; [exact (N E)|exact (H I)]|intros H I; apply H; right; exact I].
Qed.
Theorem C58_unknown_parameter_rejected : forall (V : Type) (d : list (string * V)) k0 k1 tr, ~ In k0 (map fst d) -> translate ((k0, k1) :: tr) d = Err KeyError.
Proof. intros V d k0 k1 tr N. cbn [translate]. unfold rename1. cbn [fst]. rewrite (proj2 (lookup_none k0 d) N). reflexivity. Qed.
(** Without a finite uncertainty three digits are printed. *)
Theorem C105_no_uncertainty : forall v, value_digits v None = 3%Z.
Proof. reflexivity. Qed.

(* ------------------------------------------------------------------ C61, C108: what the activity indicators refuse *)
Theorem C61_refusals : forall spline (src : list (Z * R)) target,
  ((List.length src < 4)%nat \/ (exists i a b va vb, nth_error src i = Some (a, va) /\ nth_error src (S i) = Some (b, vb) /\ (b <= a)%Z) ->
     interpolate_data spline (map (fun tv => (fst tv, Some (snd tv))) src) target = Err ValueError)
  /\ ((4 <= List.length src)%nat -> (forall i a b va vb, nth_error src i = Some (a, va) -> nth_error src (S i) = Some (b, vb) -> (a < b)%Z) ->
      (target = [] -> interpolate_data spline (map (fun tv => (fst tv, Some (snd tv))) src) target = Err IndexError)
      /\ (target <> [] -> exists res, interpolate_data spline (map (fun tv => (fst tv, Some (snd tv))) src) target = Ok res)).
Proof.
  intros spline src target. assert (A : all_some (map (fun tv => (fst tv, Some (snd tv))) src) = Some src).
  { induction src as [|[t v] r IH]; [reflexivity|]. cbn [map all_some fst snd]. rewrite IH. reflexivity. }
  unfold interpolate_data. rewrite A. clear A.
  assert (INC : increasing (map fst src) = true <-> (forall i a b va vb, nth_error src i = Some (a, va) -> nth_error src (S i) = Some (b, vb) -> (a < b)%Z)).
  { induction src as [|[t v] src IH]; [split; [intros _ [|i] a b va vb; discriminate|reflexivity]|]. destruct src as [|[t' v'] src]; [split; [intros _ [|[|i]] a b va vb; discriminate|reflexivity]|].
    change (increasing (map fst ((t, v) :: (t', v') :: src))) with (Z.ltb t t' && increasing (map fst ((t', v') :: src))). rewrite andb_true_iff, IH, Z.ltb_lt. split.
    - intros [L H] [|i] a b va vb E1 E2; [cbn in E1, E2; injection E1 as <- <-; injection E2 as <- <-; exact L|exact (H i a b va vb E1 E2)].
    - intro H. split; [exact (H 0%nat t t' v v' eq_refl eq_refl)|]. intros i a b va vb E1 E2. exact (H (S i) a b va vb E1 E2). }
  split.
  - intros [L|[i [a [b [va [vb [E1 [E2 L]]]]]]]]; [rewrite (proj2 (Nat.ltb_lt _ _) L), orb_true_r; reflexivity|].
    destruct (increasing (map fst src)) eqn:I; [|reflexivity]. exfalso. pose proof (proj1 INC eq_refl i a b va vb E1 E2). lia.
  - intros L H. rewrite (proj2 INC H). assert (B : Nat.ltb (List.length src) 4 = false) by (apply Nat.ltb_ge; exact L). rewrite B. cbn [negb orb].
    destruct src as [|[s0 v0] src]; [cbn in L; lia|]. split; [intros ->; reflexivity|]. destruct target as [|t0 target]; [intro X; contradict X; reflexivity|]. intros _. eexists. reflexivity.
Qed.
Theorem C108_refusals : forall key dssn data interp,
  (key = "nssn"%string -> 1 <= dssn -> cut_spec_by_ssn_band key dssn data interp = Err ValueError)
  /\ (key <> "nssn"%string \/ dssn < 1 -> (data = [] -> cut_spec_by_ssn_band key dssn data interp = Err ValueError)
      /\ (data <> [] -> interp = None -> cut_spec_by_ssn_band key dssn data interp = Err AttributeError)
      /\ (forall l, data <> [] -> interp = Some l -> exists res, cut_spec_by_ssn_band key dssn data interp = Ok res)).
Proof.
  intros key d data interp. unfold cut_spec_by_ssn_band. split.
  - intros -> L. change (String.eqb "nssn" "nssn") with true. rewrite (proj2 (Rleb_true 1 d) L). reflexivity.
  - intro H. assert (B : (String.eqb key "nssn" && Rleb 1 d)%bool = false).
    { destruct H as [H|H]; [rewrite (proj2 (String.eqb_neq _ _) H); reflexivity|rewrite (proj2 (Rleb_false 1 d) H), andb_false_r; reflexivity]. }
    rewrite B. split; [intros ->; reflexivity|]. destruct data as [|x r]; [split; intros; contradiction|]. split; [intros _ ->; reflexivity|]. intros l _ ->. eexists. reflexivity.
Qed.

(* ------------------------------------------------------------------ C60: dates of cached files *)
Definition calendar (y m d : Z) : Prop :=
  (1 <= d <= 31)%Z /\ In m [1; 3; 5; 7; 8; 10; 12]%Z \/ (1 <= d <= 30)%Z /\ In m [4; 6; 9; 11]%Z \/ (1 <= d <= 28)%Z /\ m = 2%Z
  \/ d = 29%Z /\ m = 2%Z /\ (4 | y)%Z /\ (~ (100 | y)%Z \/ (400 | y)%Z).
Theorem C60_calendar : forall s y m d, date_num s = (y * 10000 + m * 100 + d)%Z -> (0 <= m < 100)%Z -> (0 <= d < 100)%Z ->
  (valid_date s = true <-> (1678 <= y <= 2261)%Z /\ calendar y m d).
Proof.
  intros s y m d E Hm Hd. unfold valid_date. rewrite E. clear E.
  assert (Ey : ((y * 10000 + m * 100 + d) / 10000 = y)%Z) by (symmetry; apply (Z.div_unique _ _ _ (m * 100 + d)); lia).
  assert (Em : ((y * 10000 + m * 100 + d) / 100 mod 100 = m)%Z).
  { assert (Q : ((y * 10000 + m * 100 + d) / 100 = y * 100 + m)%Z) by (symmetry; apply (Z.div_unique _ _ _ d); lia). rewrite Q. symmetry. apply (Z.mod_unique _ _ y); lia. }
  assert (Ed : ((y * 10000 + m * 100 + d) mod 100 = d)%Z) by (symmetry; apply (Z.mod_unique _ _ (y * 100 + m)); lia).
  cbv zeta. rewrite Ey, Em, Ed. clear Ey Em Ed. rewrite !andb_true_iff, !Z.leb_le. unfold month_days, calendar.
  assert (D : forall k, (0 < k)%Z -> (y mod k =? 0)%Z = true <-> (k | y)%Z) by (intros k K; rewrite Z.eqb_eq; apply Z.mod_divide; lia).
  destruct (Z.eqb_spec m 2) as [-> |N2].
  - assert (B : ((y mod 4 =? 0) && negb (y mod 100 =? 0) || (y mod 400 =? 0))%Z = true <-> (4 | y)%Z /\ (~ (100 | y)%Z \/ (400 | y)%Z)).
    { rewrite orb_true_iff, andb_true_iff, negb_true_iff, (D 4%Z), (D 400%Z) by lia. rewrite <- (D 100%Z) by lia. destruct (y mod 100 =? 0)%Z; split; intro H.
      - destruct H as [[_ H]|H]; [discriminate|]. split; [|right; exact H]. destruct H as [q ->]. exists (q * 100)%Z. ring.
      - right. destruct H as [_ [H|H]]; [contradict H; reflexivity|exact H].
      - destruct H as [[H _]|H]; [split; [exact H|left; discriminate]|]. split; [|left; discriminate]. destruct H as [q ->]. exists (q * 100)%Z. ring.
      - left. split; [apply H|reflexivity]. }
    destruct ((y mod 4 =? 0) && negb (y mod 100 =? 0) || (y mod 400 =? 0))%Z.
    + pose proof (proj1 B eq_refl) as [B1 B2]. split; [intro H; split; [lia|]|].
      * destruct (Z.eq_dec d 29); [right; right; right; auto|right; right; left; lia].
      * intros [H1 [[_ H]|[[_ H]|[[H _]|[-> _]]]]]; [cbn in H; lia|cbn in H; lia|lia|lia].
    + split; [intro H; split; [lia|]; right; right; left; lia|]. intros [H1 [[_ H]|[[_ H]|[[H _]|[_ [_ H]]]]]]; [cbn in H; lia|cbn in H; lia|lia|apply B in H; discriminate].
  - destruct (existsb (Z.eqb m) [4; 6; 9; 11]%Z) eqn:X.
    + assert (I : In m [4; 6; 9; 11]%Z) by (apply existsb_exists in X; destruct X as [q [I Q]]; apply Z.eqb_eq in Q; subst; exact I).
      split; [intro H; split; [lia|]; right; left; split; [lia|exact I]|]. intros [H1 [[_ H]|[[H _]|[[_ H]|[_ [H _]]]]]]; [cbn in H, I; lia|cbn in I; lia|lia|lia].
    + assert (I : ~ In m [4; 6; 9; 11]%Z) by (intro I; assert (existsb (Z.eqb m) [4; 6; 9; 11]%Z = true) by (apply existsb_exists; exists m; split; [exact I|apply Z.eqb_refl]); congruence).
      split; [intro H; split; [lia|]; left; split; [lia|]; cbn in *; lia|]. intros [H1 [[H G]|[[_ H]|[[_ H]|[_ [H _]]]]]]; [cbn in G; lia|contradiction|lia|lia].
Qed.
Example C60_calendar_ex : valid_date "20240229" = true /\ valid_date "19000229" = false /\ valid_date "20000229" = true. Proof. repeat split. Qed.
