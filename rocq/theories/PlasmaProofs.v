(** Lemmas about the numeric Plasma methods. *)
From Coq Require Import List String Ascii Bool Arith ZArith Reals Lra Lia Permutation.
From Verif Require Import Py PyStr Sort Num Species SpeciesProofs Frame Plasma.
Import ListNotations.
Open Scope string_scope.

(** A legal species name contains neither '+' nor ','. *)
Definition legal (n : string) : Prop := has_char plus n = false /\ has_char comma n = false.
Definition known (s : string) : Prop := exists k, species_kind s = Some k.
(** Names a caller may combine: distinct, legal, held by the plasma and with tabulated constants. *)
Record usable (ions names : list string) : Prop := {
  us_ne : names <> [];
  us_nodup : NoDup names;
  us_legal : forall s, In s names -> legal s;
  us_in : forall s, In s names -> In s ions;
  us_known : forall s, In s names -> known s;
}.

Lemma chk_join ions names :
  names <> [] -> (forall s, In s names -> legal s) -> (forall s, In s names -> In s ions) ->
  chk_species ions [PStr (join "+" names)] = Ok (sort_str names).
Proof.
  intros Hne Hl Hi. apply chk_ok_iff. split.
  - apply conform_join; [exact Hne| |]; intros n Hn; apply Hl; exact Hn.
  - intros s Hs _. apply Hi. rewrite sort_In in Hs. exact Hs.
Qed.

Lemma chk_many ions names :
  List.length names <> 1%nat -> (forall s, In s names -> legal s) -> (forall s, In s names -> In s ions) ->
  chk_species ions (map PStr names) = Ok (sort_str names).
Proof.
  intros Hl1 Hl Hi. apply chk_ok_iff. split.
  - unfold conform_species. rewrite all_strs_map.
    assert (E : existsb (has_char comma) names = false).
    { apply existsb_false_forall. intros s Hs; apply Hl, Hs. }
    assert (F : existsb (has_char plus) names = false).
    { apply existsb_false_forall. intros s Hs; apply Hl, Hs. }
    rewrite E, F. simpl. destruct names as [|x [|y l]]; [reflexivity|simpl in Hl1; lia|reflexivity].
  - intros s Hs _. apply Hi. rewrite sort_In in Hs. exact Hs.
Qed.

Lemma chk_one ions s : legal s -> In s ions -> chk_species ions [PStr s] = Ok [s].
Proof.
  intros Hl Hi. change s with (join "+" [s]) at 1. rewrite chk_join.
  - reflexivity.
  - discriminate.
  - intros t [<-|[]]; exact Hl.
  - intros t [<-|[]]; exact Hi.
Qed.

Lemma nodup_str_id l : NoDup l -> nodup_str l = l.
Proof.
  induction 1 as [|x l Hx Hl IH]; simpl; [reflexivity|].
  apply mem_str_not in Hx. rewrite Hx, IH. reflexivity.
Qed.
Lemma sort_NoDup l : NoDup l -> NoDup (sort_str l).
Proof. apply Permutation_NoDup, Permutation_sym, sort_perm. Qed.
Lemma nodup_sort names : NoDup names -> nodup_str (sort_str names) = sort_str names.
Proof. intros H; apply nodup_str_id, sort_NoDup, H. Qed.

Lemma mapM_ok_map {A B} (f : A -> result B) (g : A -> B) l :
  (forall x, In x l -> f x = Ok (g x)) -> mapM f l = Ok (map g l).
Proof.
  induction l as [|x l IH]; intros H; simpl; [reflexivity|].
  rewrite (H x (or_introl eq_refl)), IH; [reflexivity|]. intros y Hy; apply H; right; exact Hy.
Qed.

Lemma sort_nonempty l : l <> [] -> sort_str l <> [].
Proof. intros H E. apply H. apply Permutation_nil. rewrite <- E. apply sort_perm. Qed.

Section PerSpecies.
  Context {T : Type} {A : Arith T}.
  Lemma per_species_ok {B} ions (q : string -> result B) (g : string -> B) names :
    names <> [] -> NoDup names -> (forall s, In s names -> In s ions) ->
    (forall s, In s names -> q s = Ok (g s)) ->
    per_species ions q (sort_str names) = Ok (map (fun s => (s, g s)) (sort_str names)).
  Proof.
    intros Hne Hnd Hi Hq. unfold per_species. rewrite nodup_sort by exact Hnd.
    rewrite (mapM_ok_map _ (fun s => (s, g s))).
    - simpl. destruct (sort_str names) eqn:E; [exfalso; exact (sort_nonempty _ Hne E)|reflexivity].
    - intros s Hs. rewrite sort_In in Hs. assert (Hm : mem_str s ions = true) by (apply mem_str_In; auto).
      rewrite Hm, (Hq s Hs). reflexivity.
  Qed.
End PerSpecies.

(* ----------------------------------------------------------- real data *)
Open Scope R_scope.

(** The constants as real numbers. *)
Definition kx (k : consts R) : consts XR :=
  mkConsts (Fin (c_mp k)) (Fin (c_me k)) (Fin (c_ma k)) (Fin (c_ma_mp k)) (Fin (c_me_mp k))
           (Fin (c_up k)) (Fin (c_ua k)) (Fin (c_ue k)) (Fin (c_e k)) (Fin (c_kbJ k)) (Fin (c_kbeV k))
           (Fin (c_mu0 k)) (Fin (c_eps0 k)).
Record positive (k : consts R) : Prop := {
  pos_mp : 0 < c_mp k; pos_me : 0 < c_me k; pos_ma : 0 < c_ma k;
  pos_ma_mp : 0 < c_ma_mp k; pos_me_mp : 0 < c_me_mp k;
  pos_up : 0 < c_up k; pos_ua : 0 < c_ua k; pos_ue : 0 < c_ue k;
  pos_e : 0 < c_e k; pos_kbJ : 0 < c_kbJ k; pos_kbeV : 0 < c_kbeV k;
  pos_mu0 : 0 < c_mu0 k; pos_eps0 : 0 < c_eps0 k;
}.

(** Real values of the per-species tables; 0 for unknown species (never used for those). *)
Definition kind_mmp (k : consts R) (x : kind) : R :=
  match x with KProton => 1 | KAlpha => c_ma_mp k | KElectron => c_me_mp k end.
Definition kind_m (k : consts R) (x : kind) : R :=
  match x with KProton => c_mp k | KAlpha => c_ma k | KElectron => c_me k end.
Definition kind_z (x : kind) : R :=
  match x with KProton => 1 | KAlpha => 2 | KElectron => -1 end.
Definition of_kind {B} (f : kind -> B) (d : B) (s : string) : B :=
  match species_kind s with Some k => f k | None => d end.
Definition mmp (k : consts R) (s : string) : R := of_kind (kind_mmp k) 0 s.
Definition mass (k : consts R) (s : string) : R := of_kind (kind_m k) 0 s.
Definition zcharge (s : string) : R := of_kind kind_z 0 s.

Lemma mmp_pos k s : positive k -> known s -> 0 < mmp k s.
Proof.
  intros P [x Hx]. unfold mmp, of_kind. rewrite Hx. destruct P, x; simpl; lra.
Qed.
Lemma mass_pos k s : positive k -> known s -> 0 < mass k s.
Proof.
  intros P [x Hx]. unfold mass, of_kind. rewrite Hx. destruct P, x; simpl; assumption.
Qed.

(** Unit factors (SI), core/units_constants.py 170-188. *)
Definition Ub : R := / 1000000000.
Definition Uv : R := 1000.
Definition Upth : R := / 1000000000000.
Definition UT : R := 100000.
Definition Un : R := 1000000.
Definition Urho (k : consts R) : R := Un * c_mp k.
Definition Uq : R := / 10000000.

Lemma fin_half : (half : XR) = Fin (1 / 2).
Proof. unfold half. rewrite fin_ofQ. reflexivity. Qed.
Lemma fin_ub : (u_b : XR) = Fin Ub.
Proof. unfold u_b, Ub. rewrite fin_ofQ. f_equal. lra. Qed.
Lemma fin_uv : (u_v : XR) = Fin Uv.
Proof. unfold u_v. rewrite fin_ofZ. reflexivity. Qed.
Lemma fin_upth : (u_pth : XR) = Fin Upth.
Proof. unfold u_pth, Upth. rewrite fin_ofQ. f_equal. lra. Qed.
Lemma fin_uT : (u_T : XR) = Fin UT.
Proof. unfold u_T. rewrite fin_ofZ. reflexivity. Qed.
Lemma fin_un : (u_n : XR) = Fin Un.
Proof. unfold u_n. rewrite fin_ofZ. reflexivity. Qed.
Lemma fin_urho k : u_rho (kx k) = Fin (Urho k).
Proof. unfold u_rho, Urho. rewrite fin_un. simpl c_mp. apply fin_mul. Qed.
Lemma fin_uqpar : (u_qpar : XR) = Fin Uq.
Proof. unfold u_qpar, Uq. rewrite fin_ofQ. f_equal. lra. Qed.
Lemma fin_unuc : (u_nuc : XR) = Fin Uq.
Proof. unfold u_nuc, Uq. rewrite fin_ofQ. f_equal. lra. Qed.
Lemma fin_gamma : (gamma : XR) = Fin (5 / 3).
Proof. unfold gamma. rewrite !fin_ofZ, fin_div by lra. reflexivity. Qed.

Lemma Ub_pos : 0 < Ub. Proof. unfold Ub; lra. Qed.
Lemma Uv_pos : 0 < Uv. Proof. unfold Uv; lra. Qed.
Lemma Upth_pos : 0 < Upth. Proof. unfold Upth; lra. Qed.
Lemma UT_pos : 0 < UT. Proof. unfold UT; lra. Qed.
Lemma Un_pos : 0 < Un. Proof. unfold Un; lra. Qed.
Lemma Uq_pos : 0 < Uq. Proof. unfold Uq; lra. Qed.
Lemma Urho_pos k : positive k -> 0 < Urho k.
Proof. intros P. unfold Urho. pose proof Un_pos. destruct P. nra. Qed.
#[global] Opaque Ub Uv Upth UT Un Uq Urho.

Lemma m_in_mp_fin k x : m_in_mp_of (kx k) x = Fin (kind_mmp k x).
Proof. destruct x; simpl; [apply fin_a1|reflexivity|reflexivity]. Qed.
Lemma mass_fin k x : mass_of (kx k) x = Fin (kind_m k x).
Proof. destruct x; reflexivity. Qed.
Lemma z_fin x : (z_of x : XR) = Fin (kind_z x).
Proof. destruct x; simpl; [apply fin_a1|apply fin_a2|apply fin_ofZ]. Qed.

Lemma get_kind_known s : known s -> exists k, get_kind s = Ok k /\ species_kind s = Some k.
Proof. intros [k Hk]. exists k. unfold get_kind. rewrite Hk. auto. Qed.

(** Real-valued single-species quantities. *)
Definition Rrho (k : consts R) (n : R) (s : string) : R := n * mmp k s.
Definition Rpth (k : consts R) (n w : R) (s : string) : R :=
  (1 / 2 / Upth) * (((w * Uv) * (w * Uv)) * (Rrho k n s * Urho k)).
Definition Rtemp (k : consts R) (w : R) (s : string) : R :=
  (1 / 2 * mass k s / (c_kbJ k * UT)) * ((w * Uv) * (w * Uv)).

Definition rho_fun (k : consts R) (s : string) : row XR -> XR := fun r => (ion_n s r * Fin (mmp k s))%num.
Definition pth_fun (k : consts R) (c s : string) : row XR -> XR :=
  fun r => ((half / u_pth) * (asq (ion_w c s r * u_v) * (rho_fun k s r * u_rho (kx k))))%num.
Definition temp_fun (k : consts R) (c s : string) : row XR -> XR :=
  fun r => ((half * Fin (mass k s) / (c_kbJ (kx k) * u_T)) * asq (ion_w c s r * u_v))%num.

Lemma ion_rho_ok k s : known s -> ion_rho (kx k) s = Ok (rho_fun k s).
Proof.
  intros H. destruct (get_kind_known s H) as [x [E F]]. unfold ion_rho, rho_fun, mmp, of_kind.
  rewrite E, F. simpl. rewrite m_in_mp_fin. reflexivity.
Qed.
Lemma ion_pth_ok k c s : known s -> ion_pth (kx k) c s = Ok (pth_fun k c s).
Proof. intros H. unfold ion_pth. rewrite ion_rho_ok by exact H. reflexivity. Qed.
Lemma ion_temp_ok k c s : known s -> ion_temperature (kx k) c s = Ok (temp_fun k c s).
Proof.
  intros H. destruct (get_kind_known s H) as [x [E F]]. unfold ion_temperature, temp_fun, mass, of_kind.
  rewrite E, F. simpl. rewrite mass_fin. reflexivity.
Qed.

Lemma rho_fun_fin k s r n : r ("n", "", s) = Fin n -> rho_fun k s r = Fin (Rrho k n s).
Proof. intros H. unfold rho_fun, ion_n, Rrho. rewrite H. apply fin_mul. Qed.
Lemma pth_fun_fin k c s r n w :
  r ("n", "", s) = Fin n -> r ("w", c, s) = Fin w -> pth_fun k c s r = Fin (Rpth k n w s).
Proof.
  intros Hn Hw. unfold pth_fun, Rpth, ion_w. rewrite (rho_fun_fin k s r n Hn), Hw, fin_half, fin_upth, fin_uv, fin_urho.
  pose proof Upth_pos. rewrite fin_div by lra. xfin. reflexivity.
Qed.
Lemma temp_fun_fin k c s r w :
  positive k -> r ("w", c, s) = Fin w -> temp_fun k c s r = Fin (Rtemp k w s).
Proof.
  intros P Hw. unfold temp_fun, Rtemp, ion_w. rewrite Hw, fin_half, fin_uv, fin_uT. simpl c_kbJ.
  pose proof UT_pos. destruct P. xfin. rewrite fin_div by nra. xfin. reflexivity.
Qed.

(** Sums over the columns. *)
Lemma cols_at_map {g : string -> row XR -> XR} names r :
  cols_at (map (fun s => (s, g s)) names) r = map (fun s => g s r) names.
Proof. unfold cols_at. rewrite map_map. reflexivity. Qed.

Lemma Rsum_perm l1 l2 : Permutation l1 l2 -> Rsum l1 = Rsum l2.
Proof. induction 1; simpl; lra. Qed.
Lemma Rsum_sort f names : Rsum (map f (sort_str names)) = Rsum (map f names).
Proof. apply Rsum_perm, Permutation_map, sort_perm. Qed.

Lemma sum_skip_cols (g : string -> row XR -> XR) (f : string -> R) names r :
  (forall s, In s names -> g s r = Fin (f s)) ->
  sum_skip (cols_at (map (fun s => (s, g s)) (sort_str names)) r) = Fin (Rsum (map f names)).
Proof.
  intros H. rewrite cols_at_map.
  rewrite (map_ext_in _ (fun s => Fin (f s))) by (intros s Hs; rewrite sort_In in Hs; auto).
  rewrite <- (map_map f Fin), sum_skip_fin, Rsum_sort. reflexivity.
Qed.

Lemma number_density_total {ions names} skipna :
  usable ions names ->
  number_density (T := XR) ions [PStr (join "+" names)] skipna =
  Ok (Total (fun r => (if skipna then sum_skip else sum_strict)
                        (cols_at (map (fun s => (s, ion_n s)) (sort_str names)) r))).
Proof.
  intros U. unfold number_density. rewrite chk_join by apply U. simpl bind at 1. cbv beta.
  rewrite (per_species_ok _ _ ion_n) by (try apply U; reflexivity). reflexivity.
Qed.

Lemma mass_density_total {ions names} k :
  usable ions names ->
  mass_density (kx k) ions [PStr (join "+" names)] =
  Ok (Total (fun r => sum_skip (cols_at (map (fun s => (s, rho_fun k s)) (sort_str names)) r))).
Proof.
  intros U. unfold mass_density. rewrite chk_join by apply U. unfold bind at 1.
  rewrite (per_species_ok _ _ (rho_fun k)) by (try apply U; intros s Hs; apply ion_rho_ok, U, Hs).
  reflexivity.
Qed.

Lemma pth_total {ions names} k c :
  usable ions names ->
  pth (kx k) ions [PStr (join "+" names)] c =
  Ok (Total (fun r => sum_skip (cols_at (map (fun s => (s, pth_fun k c s)) (sort_str names)) r))).
Proof.
  intros U. unfold pth. rewrite chk_join by apply U. unfold bind at 1.
  rewrite (per_species_ok _ _ (pth_fun k c)) by (try apply U; intros s Hs; apply ion_pth_ok, U, Hs).
  reflexivity.
Qed.

Lemma temp_total {ions names} k c :
  usable ions names ->
  temperature (kx k) ions [PStr (join "+" names)] c =
  Ok (Total (fun r => sum_skip (cols_at (map (fun s => (s, temp_fun k c s)) (sort_str names)) r))).
Proof.
  intros U. unfold temperature. rewrite chk_join by apply U. unfold bind at 1.
  rewrite (per_species_ok _ _ (temp_fun k c)) by (try apply U; intros s Hs; apply ion_temp_ok, U, Hs).
  reflexivity.
Qed.

(** several arguments: one column per species *)
Lemma number_density_each {ions names} skipna :
  usable ions names -> List.length names <> 1%nat ->
  number_density (T := XR) ions (map PStr names) skipna =
  Ok (Each (map (fun s => (s, ion_n s)) (sort_str names))).
Proof.
  intros U L. unfold number_density. rewrite chk_many by (try apply U; exact L). unfold bind at 1.
  rewrite (per_species_ok _ _ ion_n) by (try apply U; reflexivity). simpl.
  destruct names as [|x [|y l]]; [exfalso; apply (us_ne _ _ U); reflexivity|simpl in L; lia|reflexivity].
Qed.
Lemma mass_density_each {ions names} k :
  usable ions names -> List.length names <> 1%nat ->
  mass_density (kx k) ions (map PStr names) = Ok (Each (map (fun s => (s, rho_fun k s)) (sort_str names))).
Proof.
  intros U L. unfold mass_density. rewrite chk_many by (try apply U; exact L). unfold bind at 1.
  rewrite (per_species_ok _ _ (rho_fun k)) by (try apply U; intros s Hs; apply ion_rho_ok, U, Hs). simpl.
  destruct names as [|x [|y l]]; [exfalso; apply (us_ne _ _ U); reflexivity|simpl in L; lia|reflexivity].
Qed.
Lemma pth_each {ions names} k c :
  usable ions names -> List.length names <> 1%nat ->
  pth (kx k) ions (map PStr names) c = Ok (Each (map (fun s => (s, pth_fun k c s)) (sort_str names))).
Proof.
  intros U L. unfold pth. rewrite chk_many by (try apply U; exact L). unfold bind at 1.
  rewrite (per_species_ok _ _ (pth_fun k c)) by (try apply U; intros s Hs; apply ion_pth_ok, U, Hs). simpl.
  destruct names as [|x [|y l]]; [exfalso; apply (us_ne _ _ U); reflexivity|simpl in L; lia|reflexivity].
Qed.
