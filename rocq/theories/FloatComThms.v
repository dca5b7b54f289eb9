(** C243: the centre-of-mass velocity of core/plasma.py 1037-1090 in double precision. *)
From Coq Require Import Reals Lra List Bool ZArith Lia Psatz String Permutation.
From Flocq Require Import Core.Core Relative Plus_error IEEE754.BinarySingleNaN.
From Verif Require Import Py PyStr Sort Num NumB64 Species SpeciesProofs Frame Plasma PlasmaProofs PlasmaProofs2 PlasmaProofs4 Alfven Float64Thms FloatErrorThms FloatAlfvenThms FloatUnitThms FloatPerpThms.
Import ListNotations.
Open Scope R_scope.

Lemma eps_two_u : bpow radix2 (-52) = 2 * bpow radix2 (-53).
Proof. change 2 with (bpow radix2 1). rewrite <- bpow_plus. reflexivity. Qed.
Definition abs_sum (l : list R) : R := Rsum (map Rabs l).
(** sums of signed terms, each a few roundings from its exact value *)
Lemma fold_err k e ps rs : Forall2 (snear k e) ps rs -> forall (s : b64) S0 M0 j, is_finite s = true -> Rabs (B2R s - S0) <= INR (k + j) * bpow radix2 (-52) * M0 -> Rabs S0 <= M0 ->
  M0 + abs_sum rs <= bpow radix2 900 -> (k + j + List.length ps <= 1000)%nat ->
  let t := fold_left (fun acc x => if aisnan x then acc else aadd acc x) ps s in
  is_finite t = true /\ Rabs (B2R t - (S0 + Rsum rs)) <= INR (k + (j + List.length ps)) * bpow radix2 (-52) * (M0 + abs_sum rs).
Proof.
  induction 1 as [|p r ps rs N _ IH]; intros s S0 M0 j Fs E L BM K; cbv zeta.
  - unfold abs_sum in *. cbn [fold_left map Rsum fold_right List.length] in *. rewrite Nat.add_0_r, !Rplus_0_r. auto.
  - assert (NN : aisnan p = false) by (destruct N as [F _]; destruct p; try discriminate F; reflexivity).
    cbn [fold_left]. rewrite NN. unfold abs_sum in *. cbn [map Rsum fold_right List.length] in *. change (fold_right Rplus 0 (map Rabs rs)) with (Rsum (map Rabs rs)) in *. change (fold_right Rplus 0 rs) with (Rsum rs).
    assert (PS : 0 <= Rsum (map Rabs rs)) by (clear; induction rs as [|x rs IH]; unfold Rsum in *; cbn; [lra|pose proof (Rabs_pos x); lra]).
    pose proof (snear_err k e p r ltac:(lia) N) as EP. pose proof (Rabs_pos r) as PR. pose proof (Rabs_pos S0) as P0.
    assert (KS := ku_small (k + j) ltac:(lia)). pose proof u_small as [U1 U2]. rewrite eps_two_u in *. set (u := bpow radix2 (-53)) in *.
    set (d := INR (k + j) * (2 * u)) in *. assert (Dd : 0 <= d <= / 2) by (unfold d; pose proof (pos_INR (k + j)); split; [apply Rmult_le_pos; lra|lra]).
    assert (EP' : Rabs (B2R p - r) <= d * Rabs r) by (apply Rle_trans with (1 := EP); apply Rmult_le_compat_r; [exact PR|]; unfold d; apply Rmult_le_compat_r; [lra|]; apply le_INR; lia).
    set (M1 := M0 + Rabs r) in *.
    assert (A1 : Rabs ((B2R s + B2R p) - (S0 + r)) <= d * M1) by (replace ((B2R s + B2R p) - (S0 + r)) with ((B2R s - S0) + (B2R p - r)) by ring; apply Rle_trans with (1 := Rabs_triang _ _); unfold M1; lra).
    assert (A2 : Rabs (B2R s + B2R p) <= 2 * M1).
    { replace (B2R s + B2R p) with (((B2R s + B2R p) - (S0 + r)) + (S0 + r)) by ring. apply Rle_trans with (1 := Rabs_triang _ _). pose proof (Rabs_triang S0 r). assert (d * M1 <= / 2 * M1) by (apply Rmult_le_compat_r; unfold M1; lra). unfold M1 in *. lra. }
    assert (B1 : bpow radix2 900 * 4 <= bpow radix2 1000) by (change 4 with (bpow radix2 2); rewrite <- bpow_plus; apply bpow_le; lia). pose proof (bpow_gt_0 radix2 900) as B0.
    destruct (add_err s p Fs (proj1 N) ltac:(unfold M1 in *; lra)) as [Fa Ea]. fold u in Ea.
    destruct (IH (aadd s p) (S0 + r) M1 (S j)) as [Ft Et].
    + exact Fa.
    + replace (k + S j)%nat with (S (k + j)) by lia. rewrite S_INR. replace ((INR (k + j) + 1) * (2 * u) * M1) with (d * M1 + u * (2 * M1)) by (unfold d; ring).
      replace (B2R (aadd s p) - (S0 + r)) with ((B2R (aadd s p) - (B2R s + B2R p)) + ((B2R s + B2R p) - (S0 + r))) by ring. apply Rle_trans with (1 := Rabs_triang _ _).
      assert (u * Rabs (B2R s + B2R p) <= u * (2 * M1)) by (apply Rmult_le_compat_l; lra). lra.
    + unfold M1. apply Rle_trans with (1 := Rabs_triang _ _). lra.
    + unfold M1. lra.
    + lia.
    + split; [exact Ft|]. replace (S0 + (r + Rsum rs)) with (S0 + r + Rsum rs) by ring. replace (M0 + (Rabs r + Rsum (map Rabs rs))) with (M1 + Rsum (map Rabs rs)) by (unfold M1; ring).
      replace (j + S (List.length ps))%nat with (S j + List.length ps)%nat by lia. exact Et.
Qed.
Lemma sum_err k e ps rs : Forall2 (snear k e) ps rs -> abs_sum rs <= bpow radix2 900 -> (k + List.length ps <= 1000)%nat ->
  is_finite (sum_skip ps) = true /\ Rabs (B2R (sum_skip ps) - Rsum rs) <= INR (k + List.length ps) * bpow radix2 (-52) * abs_sum rs.
Proof.
  intros H B K. assert (Z := zero64). destruct Z as [Z1 Z2]. destruct (fold_err k e ps rs H a0 0 0 0 Z1) as [F E].
  - rewrite Z2. rewrite Rmult_0_r, Rminus_0_r, Rabs_R0. lra.
  - rewrite Rabs_R0. lra.
  - lra.
  - lia.
  - rewrite !Rplus_0_l in E. split; [exact F|exact E].
Qed.

Lemma near_snear k e x r : near k e x r -> snear k e x r.
Proof.
  intro N. destruct (near_pos _ _ _ _ N) as [P Q]. split; [apply N|]. split; [apply Rmult_le_pos; lra|]. right. apply (near_abs k e x x); [|apply N|].
  - rewrite (Rabs_pos_eq r) by lra. exact N.
  - symmetry. apply Rabs_pos_eq. lra.
Qed.

(** The weighted mean of at most 40 components of size up to [V] with positive weights known to one rounding. *)
Lemma wmean_err (l : list (b64 * b64 * R)) V : l <> [] -> (List.length l <= 40)%nat -> bpow radix2 (-50) <= V <= bpow radix2 50 ->
  Forall (fun c => let '(v, w, rho) := c in comp_ok v /\ Rabs (B2R v) <= V /\ near 1 160 w rho) l ->
  let q := adiv (sum_skip (map (fun c => amul (fst (fst c)) (snd (fst c))) l)) (sum_skip (map (fun c => snd (fst c)) l)) in
  let exact_mean := Rsum (map (fun c => B2R (fst (fst c)) * snd c) l) / Rsum (map snd l) in
  is_finite q = true /\ Rabs (B2R q - exact_mean) <= INR (2 * List.length l + 5) * bpow radix2 (-52) * V.
Proof.
  intros NE Few HV H. cbv zeta. set (n := List.length l) in *.
  set (vs := map (fun c : b64 * b64 * R => B2R (fst (fst c)) * snd c) l). set (ws := map snd l).
  assert (PV : 0 < V) by (pose proof (bpow_gt_0 radix2 (-50)); lra).
  assert (POS : forall c, In c l -> bpow radix2 (-160) <= snd c <= bpow radix2 160).
  { intros [[v w] rho] Hc. rewrite Forall_forall in H. destruct (H _ Hc) as (_ & _ & N). exact (near_range _ _ _ _ N). }
  assert (SP : forall l', (forall c, In c l' -> In c l) -> 0 <= Rsum (map snd l') <= INR (List.length l') * bpow radix2 160 /\ abs_sum (map snd l') = Rsum (map snd l') /\
     abs_sum (map (fun c => B2R (fst (fst c)) * snd c) l') <= V * Rsum (map snd l')).
  { unfold abs_sum. induction l' as [|c l' IH]; intro I; [cbn; rewrite Rmult_0_l, Rmult_0_r; repeat split; lra|]. destruct IH as (I1 & I2 & I3); [intros; apply I; right; assumption|].
    cbn [map Rsum fold_right List.length] in *. change (fold_right Rplus 0) with Rsum in *. rewrite S_INR. pose proof (POS c (I c (or_introl eq_refl))) as Pc. pose proof (bpow_gt_0 radix2 (-160)) as T0. rewrite Forall_forall in H. pose proof (H c (I c (or_introl eq_refl))) as Hc. destruct c as [[v w] rho]. cbn [fst snd] in *. destruct Hc as (_ & Hv & _).
    split; [split; lra|]. split; [rewrite (Rabs_pos_eq rho), I2; lra|]. rewrite Rabs_mult, (Rabs_pos_eq rho) by lra. assert (Rabs (B2R v) * rho <= V * rho) by (apply Rmult_le_compat_r; lra). lra. }
  destruct (SP l (fun c Hc => Hc)) as (S1 & S2 & S3). fold ws in S1, S2, S3. fold vs in S3. fold n in S1. set (W := Rsum ws) in *. set (N := Rsum vs).
  assert (WL : bpow radix2 (-160) <= W).
  { unfold W, ws. destruct l as [|c l0]; [congruence|]. cbn [map Rsum fold_right]. change (fold_right Rplus 0) with Rsum. destruct (SP l0) as (Q & _); [intros; right; assumption|]. pose proof (POS c (or_introl eq_refl)). lra. }
  assert (NL : INR n <= 40) by (apply Rle_trans with (INR 40); [apply le_INR; lia|cbn; lra]). assert (N1 : 1 <= INR n) by (change 1 with (INR 1); apply le_INR; unfold n; destruct l; [congruence|cbn; lia]).
  assert (P6 : 40 * bpow radix2 160 <= bpow radix2 166) by (change (bpow radix2 166) with (bpow radix2 (6 + 160)); rewrite bpow_plus; change (bpow radix2 6) with 64; pose proof (bpow_gt_0 radix2 160); lra).
  assert (WU : W <= bpow radix2 166) by (pose proof (bpow_gt_0 radix2 160); assert (INR n * bpow radix2 160 <= 40 * bpow radix2 160) by (apply Rmult_le_compat_r; lra); lra).
  assert (FN : Forall2 (snear 2 210) (map (fun c : b64 * b64 * R => amul (fst (fst c)) (snd (fst c))) l) vs).
  { unfold vs. clear - H. induction H as [|[[v w] rho] l Hc H IH]; [constructor|]. cbn [map fst snd]. constructor; [|exact IH]. destruct Hc as (A & _ & B). exact (snear_mul 0 1 50 160 v w _ _ (snear_comp v A) (near_snear _ _ _ _ B) ltac:(lia) ltac:(lia)). }
  assert (FW : Forall2 (snear 1 160) (map (fun c : b64 * b64 * R => snd (fst c)) l) ws).
  { unfold ws. clear - H. induction H as [|[[v w] rho] l Hc H IH]; [constructor|]. cbn [map fst snd]. constructor; [|exact IH]. apply near_snear, Hc. }
  assert (M0 : 0 <= abs_sum vs) by (unfold abs_sum; clear; induction vs as [|x r IH]; unfold Rsum in *; cbn; [lra|pose proof (Rabs_pos x); lra]).
  assert (NA : Rabs N <= abs_sum vs) by (unfold N, abs_sum; clear; induction vs as [|x r IH]; unfold Rsum in *; cbn; [rewrite Rabs_R0; lra|apply Rle_trans with (1 := Rabs_triang _ _); lra]).
  assert (VW : V * W <= bpow radix2 216) by (change (bpow radix2 216) with (bpow radix2 (50 + 166)); rewrite bpow_plus; apply Rmult_le_compat; lra).
  assert (B9 : bpow radix2 216 <= bpow radix2 900) by (apply bpow_le; lia). assert (B8 : bpow radix2 166 <= bpow radix2 900) by (apply bpow_le; lia).
  destruct (sum_err 2 210 _ _ FN ltac:(lra) ltac:(rewrite map_length; fold n; lia)) as [Fn En]. destruct (sum_err 1 160 _ _ FW ltac:(rewrite S2; lra) ltac:(rewrite map_length; fold n; lia)) as [Fw Ew].
  rewrite map_length in En, Ew. fold n in En, Ew. fold N in En. fold W in Ew. rewrite S2 in Ew. rewrite !plus_INR in En, Ew. change (INR 2) with 2 in En. change (INR 1) with 1 in Ew.
  set (sn := sum_skip (map (fun c : b64 * b64 * R => amul (fst (fst c)) (snd (fst c))) l)) in *. set (sw := sum_skip (map (fun c : b64 * b64 * R => snd (fst c)) l)) in *.
  rewrite mult_INR, !plus_INR, mult_INR || rewrite plus_INR, mult_INR. change (INR 2) with 2. change (INR 5) with (1 + 1 + 1 + 1 + 1).
  pose proof u_small as [U1 U2]. rewrite eps_two_u in *. set (u := bpow radix2 (-53)) in *. set (x := INR n) in *. clearbody x.
  (* the numerator and the denominator in units of V W and W *)
  assert (W0 : 0 < W) by (pose proof (bpow_gt_0 radix2 (-160)); lra). assert (EN : Rabs (B2R sn - N) <= (2 + x) * (2 * u) * (V * W)) by (apply Rle_trans with (1 := En); apply Rmult_le_compat_l; [apply Rmult_le_pos; lra|exact S3]).
  assert (NB : Rabs N <= V * W) by lra. clearbody N W sn sw. clear En NA M0 S3 S2 S1 SP FN FW vs ws POS.
  set (b := (1 + x) * (2 * u)) in *. set (a := (2 + x) * (2 * u)) in *. assert (Bb : 0 <= b <= / 2000000) by (unfold b; split; [apply Rmult_le_pos; lra|]; apply Rle_trans with (41 * (2 * u)); [apply Rmult_le_compat_r; lra|lra]).
  assert (Ba : 0 <= a <= / 1000000) by (unfold a; split; [apply Rmult_le_pos; lra|]; apply Rle_trans with (42 * (2 * u)); [apply Rmult_le_compat_r; lra|lra]).
  assert (SW : (1 - b) * W <= B2R sw) by (apply Rabs_le_inv in Ew; lra). assert (SW0 : 0 < B2R sw) by (assert (0 < (1 - b) * W) by (apply Rmult_lt_0_compat; lra); lra).
  (* the quotient of the two before the last rounding *)
  assert (Q0 : Rabs (B2R sn / B2R sw - N / W) <= (a + b) * (1 + 2 * b) * V).
  { replace (B2R sn / B2R sw - N / W) with (((B2R sn - N) + (N / W) * (W - B2R sw)) / B2R sw) by (field; lra). unfold Rdiv at 1. rewrite Rabs_mult, (Rabs_pos_eq (/ B2R sw)) by (apply Rlt_le, Rinv_0_lt_compat; lra).
    apply (Rmult_le_reg_r (B2R sw)); [lra|]. rewrite Rmult_assoc, Rinv_l, Rmult_1_r by lra.
    assert (X1 : Rabs (N / W * (W - B2R sw)) <= V * (b * W)).
    { rewrite Rabs_mult. apply Rmult_le_compat; [apply Rabs_pos|apply Rabs_pos| |rewrite Rabs_minus_sym; exact Ew]. unfold Rdiv. rewrite Rabs_mult, (Rabs_pos_eq (/ W)) by (apply Rlt_le, Rinv_0_lt_compat; lra). apply (Rmult_le_reg_r W); [lra|]. rewrite Rmult_assoc, Rinv_l by lra. lra. }
    apply Rle_trans with ((a + b) * (V * W)); [apply Rle_trans with (1 := Rabs_triang _ _); lra|].
    apply Rle_trans with ((a + b) * (1 + 2 * b) * V * ((1 - b) * W)); [|apply Rmult_le_compat_l; [repeat apply Rmult_le_pos; lra|exact SW]].
    replace ((a + b) * (1 + 2 * b) * V * ((1 - b) * W)) with ((a + b) * (V * W) * ((1 + 2 * b) * (1 - b))) by ring. assert (0 <= (a + b) * (V * W)) by (apply Rmult_le_pos; [lra|apply Rmult_le_pos; lra]).
    assert (1 <= (1 + 2 * b) * (1 - b)) by nra. nra. }
  assert (NW : Rabs (N / W) <= V).
  { unfold Rdiv. rewrite Rabs_mult, (Rabs_pos_eq (/ W)) by (apply Rlt_le, Rinv_0_lt_compat; lra). apply (Rmult_le_reg_r W); [lra|]. rewrite Rmult_assoc, Rinv_l by lra. lra. }
  assert (AB : (a + b) * (1 + 2 * b) <= a + b + u).
  { assert ((a + b) * (2 * b) <= (166 * u) * (/ 1000000)); [|lra]. apply Rmult_le_compat; try lra. unfold a, b. assert (x * u <= 40 * u) by (apply Rmult_le_compat_r; lra). lra. }
  assert (Q1 : Rabs (B2R sn / B2R sw - N / W) <= (a + b + u) * V) by (apply Rle_trans with (1 := Q0); apply Rmult_le_compat_r; lra).
  assert (Q2 : Rabs (B2R sn / B2R sw) <= 2 * V).
  { replace (B2R sn / B2R sw) with ((B2R sn / B2R sw - N / W) + N / W) by ring. apply Rle_trans with (1 := Rabs_triang _ _). assert ((a + b + u) * V <= 1 * V) by (apply Rmult_le_compat_r; lra). lra. }
  assert (BV : 2 * V <= bpow radix2 1000) by (assert (2 * bpow radix2 50 <= bpow radix2 1000) by (change 2 with (bpow radix2 1); rewrite <- bpow_plus; apply bpow_le; lia); lra).
  destruct (div_fin sn sw Fn ltac:(lra)) as [[_ [F E]]|[B _]]; [|pose proof (rnd_big _ (Rle_trans _ _ _ Q2 BV)); unfold MAXP in *; lra].
  split; [exact F|]. rewrite E. pose proof (rnd_err (B2R sn / B2R sw)) as RE. fold u in RE.
  assert (TV : tiny <= u * V).
  { unfold tiny, u. apply Rle_trans with (bpow radix2 (-53) * bpow radix2 (-50)); [rewrite <- bpow_plus; apply bpow_le; lia|apply Rmult_le_compat_l; [apply bpow_ge_0|lra]]. }
  replace (rnd (B2R sn / B2R sw) - N / W) with ((rnd (B2R sn / B2R sw) - B2R sn / B2R sw) + (B2R sn / B2R sw - N / W)) by ring. apply Rle_trans with (1 := Rabs_triang _ _).
  assert (u * Rabs (B2R sn / B2R sw) <= u * (2 * V)) by (apply Rmult_le_compat_l; lra).
  assert (G : (a + b + u) * V + u * (2 * V) + u * V <= (2 * x + (1 + 1 + 1 + 1 + 1)) * (2 * u) * V); [|lra].
  replace ((a + b + u) * V + u * (2 * V) + u * V) with ((a + b + 4 * u) * V) by ring. apply Rmult_le_compat_r; [lra|]. unfold a, b. lra.
Qed.

Lemma velocity_com_any {T} {A : Arith T} (K : consts T) ions names : usable ions names -> (1 < List.length names)%nat ->
  velocity K ions [PStr (join "+" names)] false =
  Ok (VOne (com_velocity (map (fun s => (s, (ion_v s, fun r => amul (ion_n s r) (m_in_mp_of K (kof s))))) (sort_str names)))).
Proof.
  intros U L. unfold velocity. rewrite chk_join by apply U. unfold bind at 1.
  pose proof (per_species_ok ions (fun s => Ok (ion_v s)) (ion_v (T := T)) names (us_ne _ _ U) (us_nodup _ _ U) (us_in _ _ U) (fun s _ => eq_refl)) as H1.
  assert (H2 : per_species ions (fun s => bind (ion_rho K s) (fun rho => Ok (ion_v (T := T) s, rho))) (sort_str names)
               = Ok (map (fun s => (s, (ion_v s, fun r => amul (ion_n s r) (m_in_mp_of K (kof s))))) (sort_str names))).
  { apply (per_species_ok ions _ (fun s => (ion_v s, fun r : row T => amul (ion_n s r) (m_in_mp_of K (kof s))))); try apply U.
    intros s Hs. rewrite ion_rho_gen by (apply (us_known _ _ U), Hs). reflexivity. }
  assert (L' := L). rewrite <- (FloatErrorThms.sort_length names) in L'. destruct (sort_str names) as [|x [|y l]] eqn:E; cbn in L'; try lia.
  cbv beta iota. rewrite H1. unfold bind at 1. rewrite H2. reflexivity.
Qed.

(** the formula: the velocities of the species, each weighed by its density times its mass (in protons' masses, from the table of constants) *)
Definition proton_masses (K : consts b64) (s : string) : R := match kof s with KProton => 1 | KAlpha => B2R (c_ma_mp K) | KElectron => B2R (c_me_mp K) end.
Definition com_formula (K : consts b64) (r : row b64) (c : string) (names : list string) : R :=
  let w := fun s => B2R (r ("n", "", s)%string) * proton_masses K s in
  Rsum (map (fun s => w s * B2R (r ("v", c, s)%string)) names) / Rsum (map w names).

(** Each component of the centre-of-mass velocity of two to 40 species, run in double precision, is the one of the formula on exactly these
    readings up to 2n+5 times 2^-52 of the largest speed among the species: also where the components cancel. *)
Theorem C243_centre_of_mass_velocity : forall (K : consts b64) ions names (r : row b64) i V, ordinary K -> usable ions names -> (1 < List.length names <= 40)%nat -> (i < 3)%nat ->
  (forall s, In s names -> sized 50 (r ("n", "", s)%string)) -> (forall s c, In s names -> In c ["x"; "y"; "z"]%string -> comp_ok (r ("v", c, s)%string)) ->
  (forall s, In s names -> Rabs (B2R (vcomp i (ion_v s r))) <= V) -> bpow radix2 (-50) <= V <= bpow radix2 50 ->
  exists f F q, velocity K ions [PStr (join "+" names)] false = Ok (VOne f) /\ velocity (exact_consts K) ions [PStr (join "+" names)] false = Ok (VOne F) /\
    vcomp i (F (exact_row r)) = Fin q /\ q = com_formula K r (nth i ["x"; "y"; "z"]%string "") names /\ is_finite (vcomp i (f r)) = true /\ Rabs (B2R (vcomp i (f r)) - q) <= INR (2 * List.length names + 5) * bpow radix2 (-52) * V /\ Rabs q <= V.
Proof.
  intros K ions names r i V OK U [L2 L40] Hi Hn Hv HV RV.
  set (rho := fun s => amul (ion_n s r) (m_in_mp_of K (kof s)) : b64).
  set (X := fun s => match amul (ion_n s (exact_row r)) (m_in_mp_of (exact_consts K) (kof s)) with Fin q => q | _ => 0 end).
  assert (HX : forall s, In s names -> amul (ion_n s (exact_row r)) (m_in_mp_of (exact_consts K) (kof s)) = Fin (X s) /\ near 1 160 (rho s) (X s)).
  { intros s Hs. assert (R1 : rel 1 160 (rho s) (amul (ion_n s (exact_row r)) (m_in_mp_of (exact_consts K) (kof s)))).
    { apply (rel_mul 0 0 50 110); [exact (rel_sized 50 _ (Hn s Hs))|apply rel_mmp, OK|lia|lia]. }
    destruct R1 as [q [E N]]. unfold X. rewrite E. auto. }
  set (l := map (fun s => (vcomp i (ion_v s r), rho s, X s)) (sort_str names)).
  assert (CO : forall s, In s names -> comp_ok (vcomp i (ion_v s r))).
  { intros s Hs. unfold ion_v, vcomp. destruct i as [|[|[|i]]]; [| | |lia]; apply Hv; cbn; auto. }
  assert (VX : forall s, In s names -> vcomp i (ion_v s (exact_row r)) = Fin (B2R (vcomp i (ion_v s r)))).
  { intros s Hs. rewrite <- (exact_fin _ (proj1 (CO s Hs))). unfold ion_v, vcomp, exact_row. destruct i as [|[|i]]; reflexivity. }
  assert (LL : List.length l = List.length names) by (unfold l; rewrite map_length, FloatErrorThms.sort_length; reflexivity).
  destruct (wmean_err l V) as [F E].
  - intro E. rewrite E in LL. cbn in LL. lia.
  - rewrite LL. exact L40.
  - exact RV.
  - apply Forall_forall. intros c Hc. unfold l in Hc. apply in_map_iff in Hc. destruct Hc as [s [<- Hs]]. rewrite sort_In in Hs. split; [apply CO, Hs|]. split; [apply HV, Hs|apply HX, Hs].
  - rewrite LL in E. do 2 eexists. exists (Rsum (map (fun c => B2R (fst (fst c)) * snd c) l) / Rsum (map snd l)). split; [apply (velocity_com_any K ions names U L2)|]. split; [apply (velocity_com_any (exact_consts K) ions names U L2)|].
    assert (VB : forall f, vcomp i (vbuild f) = f i :> b64) by (intro f; destruct i as [|[|[|i]]]; [reflexivity|reflexivity|reflexivity|lia]).
    assert (VBX : forall f, vcomp i (vbuild f) = f i :> XR) by (intro f; destruct i as [|[|[|i]]]; [reflexivity|reflexivity|reflexivity|lia]).
    unfold com_velocity. rewrite VB, VBX. rewrite !map_map. cbn [fst snd]. unfold l in *. rewrite !map_map in *. cbn [fst snd] in *.
    assert (PX : forall s, In s names -> 0 < X s) by (intros s Hs; exact (proj1 (near_pos _ _ _ _ (proj2 (HX s Hs))))).
    assert (WP : 0 < Rsum (map (fun s => X s) (sort_str names))).
    { assert (G : forall l0, l0 <> [] -> (forall s, In s l0 -> 0 < X s) -> 0 < Rsum (map (fun s => X s) l0)).
      { induction l0 as [|s l0 IH]; intros NE P; [congruence|]. cbn. change (fold_right Rplus 0 (map (fun s => X s) l0)) with (Rsum (map (fun s => X s) l0)). pose proof (P s (or_introl eq_refl)). destruct l0 as [|t l0]; [cbn; lra|]. specialize (IH ltac:(discriminate) (fun u Hu => P u (or_intror Hu))). lra. }
      apply G; [intro Q; apply (f_equal (@List.length string)) in Q; rewrite FloatErrorThms.sort_length in Q; cbn in Q; lia|intros s Hs; rewrite sort_In in Hs; apply PX, Hs]. }
    assert (XE : forall s, In s names -> X s = B2R (r ("n", "", s)%string) * proton_masses K s).
    { intros s Hs. pose proof (proj1 (HX s Hs)) as Q. unfold ion_n, exact_row in Q. rewrite (exact_fin _ (proj1 (Hn s Hs))) in Q. unfold proton_masses. destruct OK as [O1 O2 O3 O4 O5 O6 O7].
      destruct (kof s); cbn [m_in_mp_of exact_consts c_ma_mp c_me_mp] in Q.
      - rewrite fin_a1, fin_mul in Q. congruence.
      - rewrite (exact_fin _ (proj1 O4)), fin_mul in Q. congruence.
      - rewrite (exact_fin _ (proj1 O5)), fin_mul in Q. congruence. }
    split; [|split; [|split; [exact F|split; [exact E|]]]].
    + rewrite (map_ext_in _ (fun s => Fin (B2R (vcomp i (ion_v s r)) * X s))) by (intros s Hs; rewrite sort_In in Hs; rewrite (VX s Hs), (proj1 (HX s Hs)), fin_mul; reflexivity).
      rewrite (map_ext_in (fun s => amul (ion_n s (exact_row r)) _) (fun s => Fin (X s))) by (intros s Hs; rewrite sort_In in Hs; apply HX, Hs).
      rewrite <- (map_map (fun s => B2R (vcomp i (ion_v s r)) * X s) Fin), <- (map_map (fun s => X s) Fin), !sum_skip_fin, fin_div by lra. reflexivity.
    + unfold com_formula. cbv zeta. assert (PS : forall g : string -> R, Rsum (map g names) = Rsum (map g (sort_str names))) by (intro g; apply Rsum_perm, Permutation_map, Permutation_sym, sort_perm).
      rewrite !PS. rewrite (map_ext_in (fun s => B2R (r ("n", "", s)%string) * proton_masses K s) X) by (intros s Hs; rewrite sort_In in Hs; rewrite (XE s Hs); reflexivity). change (map (fun s => X s)) with (map X). f_equal. f_equal. apply map_ext_in. intros s Hs. rewrite sort_In in Hs. rewrite <- (XE s Hs).
      rewrite Rmult_comm. f_equal. f_equal. destruct i as [|[|[|i]]]; [reflexivity|reflexivity|reflexivity|lia].
    + assert (G : forall l0, (forall s, In s l0 -> In s names) -> Rabs (Rsum (map (fun s => B2R (vcomp i (ion_v s r)) * X s) l0)) <= V * Rsum (map (fun s => X s) l0)).
      { induction l0 as [|s l0 IH]; intro I; [cbn; rewrite Rabs_R0; lra|]. cbn [map Rsum fold_right]. change (fold_right Rplus 0) with Rsum. apply Rle_trans with (1 := Rabs_triang _ _). specialize (IH (fun u Hu => I u (or_intror Hu))).
        pose proof (PX s (I s (or_introl eq_refl))) as P. rewrite Rabs_mult, (Rabs_pos_eq (X s)) by lra. pose proof (HV s (I s (or_introl eq_refl))) as B. assert (Rabs (B2R (vcomp i (ion_v s r))) * X s <= V * X s) by (apply Rmult_le_compat_r; lra). unfold Rsum in *. lra. }
      unfold Rdiv. rewrite Rabs_mult, (Rabs_pos_eq (/ _)) by (apply Rlt_le, Rinv_0_lt_compat, WP). apply (Rmult_le_reg_r (Rsum (map (fun s => X s) (sort_str names)))); [exact WP|]. rewrite Rmult_assoc, Rinv_l, Rmult_1_r by lra. apply G. intros s Hs. rewrite sort_In in Hs. exact Hs.
Qed.
Definition row243 : row b64 := fun k => let '(m, c, s) := k in
  if String.eqb m "n" then (if String.eqb s "a" then aofZ 1 else aofZ 4) else if String.eqb c "x" then (if String.eqb s "a" then bZ (-400) else bZ 397) else bZ 30.
Example case_243 : exists f F q, velocity K232 ["a"; "p1"]%string [PStr (join "+" ["p1"; "a"]%string)] false = Ok (VOne f) /\ velocity (exact_consts K232) ["a"; "p1"]%string [PStr (join "+" ["p1"; "a"]%string)] false = Ok (VOne F) /\
    vcomp 0 (F (exact_row row243)) = Fin q /\ q = com_formula K232 row243 "x" ["p1"; "a"]%string /\ is_finite (vcomp 0 (f row243)) = true /\ Rabs (B2R (vcomp 0 (f row243)) - q) <= INR (2 * List.length ["p1"; "a"]%string + 5) * bpow radix2 (-52) * bpow radix2 10 /\ Rabs q <= bpow radix2 10.
Proof.
  apply (C243_centre_of_mass_velocity K232 ["a"; "p1"]%string ["p1"; "a"]%string row243 0 (bpow radix2 10) ordinary_232 usable_232); [cbn; lia|lia| | | |].
  - intros s [<-|[<-|[]]]; by_size.
  - intros s c [<-|[<-|[]]] [<-|[<-|[<-|[]]]]; apply comp_int; lia.
  - intros s [<-|[<-|[]]]; cbn [ion_v vcomp]; [change (Rabs (B2R (bZ 397)) <= bpow radix2 10)|change (Rabs (B2R (bZ (-400))) <= bpow radix2 10)].
    + rewrite (proj2 (bZ_ok 397 ltac:(lia))). rewrite <- abs_IZR. change (bpow radix2 10) with (IZR 1024). apply IZR_le. lia.
    + rewrite (proj2 (bZ_ok (-400) ltac:(lia))). rewrite <- abs_IZR. change (bpow radix2 10) with (IZR 1024). apply IZR_le. lia.
  - split; apply bpow_le; lia.
Qed.
