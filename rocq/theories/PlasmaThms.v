(** Property theorems C10-C24 and C88: the numeric Plasma methods, on extended reals.

    Reading guide. [usable ions names]: distinct legal names the plasma holds and whose constants are
    tabulated. [returns call r x]: the call returns a Series whose value in row [r] is the finite
    number [x]; [returns_col call s r x]: it returns a frame whose column [s] is [x] in row [r];
    [plain call r x]: a method that always returns one Series. [kx k]: the real constants [k].
    [Ub], [Uv], [Upth], [UT], [Un], [Urho k] are the SI values of the units of B, speeds, pressure,
    temperature, density and mass density. [mmp], [mass], [zcharge]: the per-species tables. *)
From Coq Require Import List String Ascii Bool Arith ZArith Reals Lra Lia Psatz Permutation.
From Verif Require Import Py PyStr Sort Num Species SpeciesProofs Frame Plasma PlasmaProofs PlasmaProofs2 PlasmaProofs3 PlasmaProofs4 PlasmaMore.
Import ListNotations.
Open Scope string_scope.
Open Scope R_scope.

(* ============================================================ examples *)
(** CODATA-like constants and a two-species row used for the non-vacuity examples. *)
Definition ex_k : consts R :=
  mkConsts (1672621 / 10 ^ 33) (9109 / 10 ^ 34) (397260 / 100000 * (1672621 / 10 ^ 33))
           (397260 / 100000) (5446 / 10 ^ 7) (1007 / 1000) (4001 / 1000) (5485 / 10 ^ 7)
           (1602 / 10 ^ 22) (1380 / 10 ^ 26) (8617 / 10 ^ 8) (1256 / 10 ^ 9) (8854 / 10 ^ 15).
Definition ex_ions : list string := ["a"; "p1"].
Definition ex_row : row XR := fun k =>
  let '(m, c, s) := k in
  if String.eqb m "n" then (if String.eqb s "a" then Fin 1 else Fin 20)
  else if String.eqb m "v" then (if String.eqb s "a" then Fin 410 else Fin 400)
  else if String.eqb m "w" then (if String.eqb s "a" then Fin 30 else Fin 40)
  else Fin 3.

Example ex_usable : usable ex_ions ["p1"; "a"].
Proof.
  split.
  - discriminate.
  - repeat constructor; simpl; intuition discriminate.
  - intros s [<-|[<-|[]]]; split; reflexivity.
  - intros s [<-|[<-|[]]]; simpl; auto.
  - intros s [<-|[<-|[]]]; eexists; reflexivity.
Qed.
Example ex_positive : positive ex_k.
Proof. split; simpl; lra. Qed.
Example ex_row_ok : ex_row ("n", "", "a") = Fin 1 /\ ex_row ("n", "", "p1") = Fin 20 /\
  has_b ex_row 3 3 3 /\ has_v ex_row "a" 410 410 410 /\ has_v ex_row "p1" 400 400 400.
Proof. repeat split. Qed.

(* ================================================================ C10 *)
(** n, rho and pth of 's0+s1+...' are the sums over the species. *)
Theorem C10_density_is_sum :
  forall ions names sk r n, usable ions names ->
  (forall s, In s names -> r ("n", "", s) = Fin (n s)) ->
  returns (number_density ions [PStr (join "+" names)] sk) r (Rsum (map n names)).
Proof. exact n_total_val. Qed.
Print Assumptions C10_density_is_sum.

Theorem C10_mass_density_is_sum :
  forall ions names k r n, usable ions names ->
  (forall s, In s names -> r ("n", "", s) = Fin (n s)) ->
  returns (mass_density (kx k) ions [PStr (join "+" names)]) r (Rsum (map (fun s => n s * mmp k s) names)) /\
  (forall s, In s names -> returns (mass_density (kx k) ions [PStr s]) r (n s * mmp k s)).
Proof.
  intros ions names k r n U Hn. split; [apply rho_total_val; assumption|].
  intros s Hs. pose proof (rho_total_val ions [s] k r n (usable_sub _ _ _ U Hs)) as H.
  simpl in H. rewrite Rplus_0_r in H. apply H. intros t [<-|[]]; auto.
Qed.
Print Assumptions C10_mass_density_is_sum.

(** the total pressure is the sum of what the call returns for each species alone *)
Theorem C10_pressure_is_sum :
  forall ions names k c r n w, usable ions names ->
  (forall s, In s names -> r ("n", "", s) = Fin (n s)) ->
  (forall s, In s names -> r ("w", c, s) = Fin (w s)) ->
  exists p : string -> R,
    (forall s, In s names -> returns (pth (kx k) ions [PStr s] c) r (p s)) /\
    returns (pth (kx k) ions [PStr (join "+" names)] c) r (Rsum (map p names)).
Proof.
  intros ions names k c r n w U Hn Hw. exists (fun s => Rpth k (n s) (w s) s). split.
  - intros s Hs. apply (pth_one_val ions k c r s (n s) (w s)); auto. apply (usable_sub _ _ _ U Hs).
  - apply pth_total_val; assumption.
Qed.
Print Assumptions C10_pressure_is_sum.

(** totals are monotone in each species and non-negative when the parts are *)
Theorem C10_density_monotone :
  forall ions names sk r r' n n' x x', usable ions names ->
  (forall s, In s names -> r ("n", "", s) = Fin (n s)) ->
  (forall s, In s names -> r' ("n", "", s) = Fin (n' s)) ->
  (forall s, In s names -> n s <= n' s) ->
  returns (number_density ions [PStr (join "+" names)] sk) r x ->
  returns (number_density ions [PStr (join "+" names)] sk) r' x' ->
  x <= x' /\ ((forall s, In s names -> 0 <= n s) -> 0 <= x).
Proof.
  intros ions names sk r r' n n' x x' U Hn Hn' Hle H H'.
  rewrite (returns_fun _ _ _ _ H (n_total_val _ _ sk _ _ U Hn)).
  rewrite (returns_fun _ _ _ _ H' (n_total_val _ _ sk _ _ U Hn')). split.
  - apply Rsum_le. exact Hle.
  - intros Hp. apply Rsum_nonneg. intros y Hy. apply in_map_iff in Hy as [s [<- Hs]]. auto.
Qed.
Print Assumptions C10_density_monotone.

Theorem C10_pressure_nonnegative :
  forall ions names k c r n w x, positive k -> usable ions names ->
  (forall s, In s names -> r ("n", "", s) = Fin (n s) /\ 0 <= n s) ->
  (forall s, In s names -> r ("w", c, s) = Fin (w s)) ->
  returns (pth (kx k) ions [PStr (join "+" names)] c) r x -> 0 <= x.
Proof.
  intros ions names k c r n w x P U Hn Hw H.
  rewrite (returns_fun _ _ _ _ H (pth_total_val ions names k c r n w U (fun s Hs => proj1 (Hn s Hs)) Hw)).
  apply Rsum_nonneg. intros y Hy. apply in_map_iff in Hy as [s [<- Hs]].
  apply Rpth_nonneg; [exact P|apply U, Hs|apply Hn, Hs].
Qed.
Print Assumptions C10_pressure_nonnegative.

(** several arguments: each species' own column, unchanged *)
Theorem C10_several_arguments_give_columns :
  forall ions names sk r n s, usable ions names -> List.length names <> 1%nat -> In s names ->
  r ("n", "", s) = Fin n -> returns_col (number_density ions (map PStr names) sk) s r n.
Proof.
  intros ions names sk r n s U L Hs Hn. apply (each_col (g := ion_n) (names := names)); auto.
  apply number_density_each; assumption.
Qed.
Print Assumptions C10_several_arguments_give_columns.

(** writing a name twice changes nothing *)
Theorem C10_repeated_names_count_once :
  forall (K : consts XR) ions names names' sk c,
  names <> [] -> names' <> [] -> (forall s, In s names <-> In s names') ->
  (forall s, In s names -> legal s /\ In s ions) ->
  number_density ions [PStr (join "+" names)] sk = number_density (T := XR) ions [PStr (join "+" names')] sk /\
  mass_density K ions [PStr (join "+" names)] = mass_density K ions [PStr (join "+" names')] /\
  pth K ions [PStr (join "+" names)] c = pth K ions [PStr (join "+" names')] c.
Proof.
  intros K ions names names' sk c H1 H2 HS HL.
  unfold number_density, mass_density, pth.
  rewrite !chk_join; try assumption; try (intros s Hs; apply HL, HS, Hs); try (intros s Hs; apply HL, Hs).
  cbn [bind]. rewrite !(per_species_same_set ions _ names names' HS). auto.
Qed.
Example C10_ex_repeat : number_density (T := XR) ex_ions [PStr "a+a"] true = number_density ex_ions [PStr "a"] true.
Proof. reflexivity. Qed.
Print Assumptions C10_repeated_names_count_once.

(* ================================================================ C11 *)
(** C11 is false: a missing density or pressure counts as zero, and the total is reported as a number. *)
Theorem C11_missing_propagates_refuted :
  exists (r : row XR) k,
    r ("n", "", "a") = NaN /\ r ("w", "par", "p1") = NaN /\ positive k /\
    returns (number_density ex_ions [PStr "a"] true) r 0 /\
    returns (number_density ex_ions [PStr "a+p1"] true) r 20 /\
    returns (mass_density (kx k) ex_ions [PStr "a"]) r 0 /\
    returns (pth (kx k) ex_ions [PStr "a"] "par") r 0 /\
    returns (pth (kx k) ex_ions [PStr "p1"] "par") r 0 /\
    returns (temperature (kx k) ex_ions [PStr "p1"] "par") r 0 /\
    returns (thermal_speed ex_ions [PStr "p1"] "par") r 0 /\
    (exists f, anisotropy (kx k) ex_ions [PStr "p1"] = Ok (Total f) /\ f r = PInf).
Proof. exact missing_refutation. Qed.
Print Assumptions C11_missing_propagates_refuted.

(** What the code does instead: the total is the sum over the species that are present. *)
Theorem C11_total_is_sum_of_present_partial :
  forall ions names r (n : string -> option R), usable ions names ->
  (forall s, In s names -> r ("n", "", s) = match n s with Some x => Fin x | None => NaN end) ->
  returns (number_density ions [PStr (join "+" names)] true) r
    (Rsum (map (fun s => match n s with Some x => x | None => 0 end) names)).
Proof. exact n_total_present. Qed.
Print Assumptions C11_total_is_sum_of_present_partial.

(** The claim does hold for number_density(..., skipna=False) ... *)
Theorem C11_strict_density_propagates_partial :
  forall ions names r, usable ions names -> (exists s, In s names /\ r ("n", "", s) = NaN) ->
  exists f, number_density ions [PStr (join "+" names)] false = Ok (Total f) /\ f r = NaN.
Proof.
  intros ions names r U (s & Hs & Hn). eexists; split; [apply (number_density_total false U)|]. cbv beta.
  apply sum_strict_nan. rewrite cols_at_map. apply in_map_iff. exists s. split; [exact Hn|].
  rewrite sort_In. exact Hs.
Qed.
Print Assumptions C11_strict_density_propagates_partial.

(** ... and for the per-species columns returned for several arguments. *)
Theorem C11_columns_propagate_partial :
  forall ions names k c r s, usable ions names -> List.length names <> 1%nat -> In s names ->
  (r ("n", "", s) = NaN \/ r ("w", c, s) = NaN) ->
  exists cols f, pth (kx k) ions (map PStr names) c = Ok (Each cols) /\ In (s, f) cols /\ f r = NaN.
Proof.
  intros ions names k c r s U L Hs H. eexists _, (pth_fun k c s).
  split; [apply (pth_each k c U L)|]. split.
  - apply (in_map (fun s => (s, pth_fun k c s))). rewrite sort_In. exact Hs.
  - apply pth_fun_nan. exact H.
Qed.
Print Assumptions C11_columns_propagate_partial.

(* ================================================================ C12 *)
(** pth = rho w^2 / 2 and pth = n k T, in SI units *)
Theorem C12_pressure_density_speed :
  forall ions s k c r n w p, usable ions [s] ->
  r ("n", "", s) = Fin n -> r ("w", c, s) = Fin w ->
  returns (pth (kx k) ions [PStr s] c) r p ->
  p * Upth = 1 / 2 * (n * mmp k s * Urho k) * (w * Uv) ^ 2.
Proof.
  intros ions s k c r n w p U Hn Hw H.
  rewrite (returns_fun _ _ _ _ H (pth_one_val ions k c r s n w U Hn Hw)).
  unfold Rpth, Rrho. pose proof Upth_pos. field. lra.
Qed.
Print Assumptions C12_pressure_density_speed.

Theorem C12_ideal_gas :
  forall ions s k c r n w p T, positive k -> consistent k -> usable ions [s] ->
  r ("n", "", s) = Fin n -> r ("w", c, s) = Fin w ->
  returns (pth (kx k) ions [PStr s] c) r p ->
  returns (temperature (kx k) ions [PStr s] c) r T ->
  p * Upth = (n * Un) * c_kbJ k * (T * UT).
Proof. exact ideal_gas. Qed.
Example C12_ex : exists k, positive k /\ consistent k.
Proof. exists ex_consistent. exact ex_consistent_ok. Qed.
Print Assumptions C12_ideal_gas.

Theorem C12_scalar_pressure_is_trace :
  forall ions s k r n wpar wper wsc ppar pper psc, usable ions [s] ->
  r ("n", "", s) = Fin n -> r ("w", "par", s) = Fin wpar -> r ("w", "per", s) = Fin wper ->
  r ("w", "scalar", s) = Fin wsc -> wsc ^ 2 = (2 * wper ^ 2 + wpar ^ 2) / 3 ->
  returns (pth (kx k) ions [PStr s] "par") r ppar ->
  returns (pth (kx k) ions [PStr s] "per") r pper ->
  returns (pth (kx k) ions [PStr s] "scalar") r psc ->
  psc = (2 * pper + ppar) / 3.
Proof.
  intros ions s k r n wpar wper wsc ppar pper psc U Hn H1 H2 H3 E A B C.
  rewrite (returns_fun _ _ _ _ A (pth_one_val ions k _ r s n wpar U Hn H1)).
  rewrite (returns_fun _ _ _ _ B (pth_one_val ions k _ r s n wper U Hn H2)).
  rewrite (returns_fun _ _ _ _ C (pth_one_val ions k _ r s n wsc U Hn H3)).
  unfold Rpth. replace (wsc * Uv * (wsc * Uv)) with (wsc ^ 2 * (Uv * Uv)) by ring. rewrite E.
  pose proof Upth_pos. field. lra.
Qed.
Print Assumptions C12_scalar_pressure_is_trace.

(* ================================================================ C13 *)
(** beta times the magnetic pressure is the thermal pressure (SI) *)
Theorem C13_beta_is_pressure_ratio :
  forall ions names k c r n w bx by' bz p b, positive k -> usable ions names ->
  (forall s, In s names -> r ("n", "", s) = Fin (n s)) ->
  (forall s, In s names -> r ("w", c, s) = Fin (w s)) ->
  has_b r bx by' bz -> 0 < bx ^ 2 + by' ^ 2 + bz ^ 2 ->
  returns (pth (kx k) ions [PStr (join "+" names)] c) r p ->
  returns (beta (kx k) ions [PStr (join "+" names)] c) r b ->
  b * ((bx ^ 2 + by' ^ 2 + bz ^ 2) * Ub ^ 2 / (2 * c_mu0 k)) = p * Upth.
Proof.
  intros ions names k c r n w bx by' bz p b P U Hn Hw Hb Hpos Hp Hbeta.
  assert (Hnz : bx * bx + by' * by' + bz * bz <> 0) by nra.
  rewrite (returns_fun _ _ _ _ Hp (pth_total_val ions names k c r n w U Hn Hw)).
  rewrite (returns_fun _ _ _ _ Hbeta (beta_total_val ions names k c r n w _ _ _ U Hn Hw Hb Hnz)).
  unfold Rbeta_coeff. pose proof Ub_pos. destruct P. field. lra.
Qed.
Print Assumptions C13_beta_is_pressure_ratio.

Theorem C13_beta_is_additive :
  forall ions names k c r n w bx by' bz, usable ions names ->
  (forall s, In s names -> r ("n", "", s) = Fin (n s)) ->
  (forall s, In s names -> r ("w", c, s) = Fin (w s)) ->
  has_b r bx by' bz -> 0 < bx ^ 2 + by' ^ 2 + bz ^ 2 ->
  exists b : string -> R,
    (forall s, In s names -> returns (beta (kx k) ions [PStr s] c) r (b s)) /\
    returns (beta (kx k) ions [PStr (join "+" names)] c) r (Rsum (map b names)).
Proof.
  intros ions names k c r n w bx by' bz U Hn Hw Hb Hpos.
  assert (Hnz : bx * bx + by' * by' + bz * bz <> 0) by nra.
  exists (fun s => Rpth k (n s) (w s) s / (bx * bx + by' * by' + bz * bz) * Rbeta_coeff k). split.
  - intros s Hs.
    pose proof (beta_total_val ions [s] k c r n w bx by' bz (usable_sub _ _ _ U Hs)) as H.
    simpl in H. rewrite Rplus_0_r in H.
    apply H; auto; intros t [<-|[]]; auto.
  - pose proof (beta_total_val ions names k c r n w _ _ _ U Hn Hw Hb Hnz) as H.
    rewrite <- Rsum_div_mul in H. exact H.
Qed.
Print Assumptions C13_beta_is_additive.

(** scaling the field by q divides beta by q^2 *)
Theorem C13_beta_scaling :
  forall ions names k c r r' n w bx by' bz q b b', usable ions names -> q <> 0 ->
  (forall s, In s names -> r ("n", "", s) = Fin (n s) /\ r' ("n", "", s) = Fin (n s)) ->
  (forall s, In s names -> r ("w", c, s) = Fin (w s) /\ r' ("w", c, s) = Fin (w s)) ->
  has_b r bx by' bz -> has_b r' (q * bx) (q * by') (q * bz) -> 0 < bx ^ 2 + by' ^ 2 + bz ^ 2 ->
  returns (beta (kx k) ions [PStr (join "+" names)] c) r b ->
  returns (beta (kx k) ions [PStr (join "+" names)] c) r' b' -> b' = b / q ^ 2.
Proof.
  intros ions names k c r r' n w bx by' bz q b b' U Hq Hn Hw Hb Hb' Hpos H H'.
  assert (Hnz : bx * bx + by' * by' + bz * bz <> 0) by nra.
  assert (Hnz' : q * bx * (q * bx) + q * by' * (q * by') + q * bz * (q * bz) <> 0).
  { replace (q * bx * (q * bx) + q * by' * (q * by') + q * bz * (q * bz))
      with (q * q * (bx * bx + by' * by' + bz * bz)) by ring.
    apply Rmult_integral_contrapositive_currified; [|exact Hnz].
    apply Rmult_integral_contrapositive_currified; exact Hq. }
  rewrite (returns_fun _ _ _ _ H (beta_total_val ions names k c r n w _ _ _ U
     (fun s Hs => proj1 (Hn s Hs)) (fun s Hs => proj1 (Hw s Hs)) Hb Hnz)).
  rewrite (returns_fun _ _ _ _ H' (beta_total_val ions names k c r' n w _ _ _ U
     (fun s Hs => proj2 (Hn s Hs)) (fun s Hs => proj2 (Hw s Hs)) Hb' Hnz')).
  field. repeat split; assumption.
Qed.
Print Assumptions C13_beta_scaling.

(** in a null field beta is infinite, or NaN when the pressure vanishes too *)
Theorem C13_beta_in_null_field :
  forall ions names k c r n w p, positive k -> usable ions names ->
  (forall s, In s names -> r ("n", "", s) = Fin (n s)) ->
  (forall s, In s names -> r ("w", c, s) = Fin (w s)) -> has_b r 0 0 0 ->
  returns (pth (kx k) ions [PStr (join "+" names)] c) r p ->
  exists f, beta (kx k) ions [PStr (join "+" names)] c = Ok (Total f) /\
            (0 < p -> f r = PInf) /\ (p = 0 -> f r = NaN).
Proof. exact beta_null_field. Qed.
Print Assumptions C13_beta_in_null_field.

(* ================================================================ C14 *)
Theorem C14_anisotropy_is_ratio :
  forall ions names k r n wpar wper ppar pper a, usable ions names ->
  (forall s, In s names -> r ("n", "", s) = Fin (n s)) ->
  (forall s, In s names -> r ("w", "par", s) = Fin (wpar s)) ->
  (forall s, In s names -> r ("w", "per", s) = Fin (wper s)) ->
  returns (pth (kx k) ions [PStr (join "+" names)] "par") r ppar ->
  returns (pth (kx k) ions [PStr (join "+" names)] "per") r pper -> ppar <> 0 ->
  returns (anisotropy (kx k) ions [PStr (join "+" names)]) r a ->
  a = pper / ppar /\ (a = 1 <-> pper = ppar).
Proof.
  intros ions names k r n wpar wper ppar pper a U Hn H1 H2 Hp He Hnz Ha.
  rewrite (returns_fun _ _ _ _ Hp (pth_total_val ions names k _ r n wpar U Hn H1)) in *.
  rewrite (returns_fun _ _ _ _ He (pth_total_val ions names k _ r n wper U Hn H2)) in *.
  rewrite (returns_fun _ _ _ _ Ha (aniso_total_val ions names k r n wpar wper U Hn H1 H2 Hnz)).
  split; [reflexivity|]. split.
  - intros E. apply (Rmult_eq_compat_r (Rsum (map (fun s => Rpth k (n s) (wpar s) s) names))) in E.
    unfold Rdiv in E. rewrite Rmult_assoc, Rinv_l in E by exact Hnz. lra.
  - intros ->. field. exact Hnz.
Qed.
Print Assumptions C14_anisotropy_is_ratio.

(** the same for the per-species columns of a call with several arguments *)
Theorem C14_anisotropy_columns :
  forall ions names k r n wpar wper s, positive k -> usable ions names -> (1 < List.length names)%nat ->
  In s names -> r ("n", "", s) = Fin n -> r ("w", "par", s) = Fin wpar -> r ("w", "per", s) = Fin wper ->
  0 < n -> 0 < wpar ->
  returns_col (anisotropy (kx k) ions (map PStr names)) s r (wper ^ 2 / wpar ^ 2).
Proof. exact aniso_each_val. Qed.
Print Assumptions C14_anisotropy_columns.

(* ================================================================ C15 *)
(** one species: its own velocity, whatever the values *)
Theorem C15_single_species_velocity :
  forall (K : consts XR) ions s, legal s -> In s ions ->
  exists f, velocity K ions [PStr s] false = Ok (VOne f) /\
    forall r, f r = (r ("v", "x", s), r ("v", "y", s), r ("v", "z", s)).
Proof. intros K ions s L I. exists (ion_v s). split; [apply velocity_one; assumption|reflexivity]. Qed.
Print Assumptions C15_single_species_velocity.

(** several species: the mass-weighted mean of each component *)
Theorem C15_centre_of_mass_velocity :
  forall ions names k r n vx vy vz, positive k -> usable ions names -> (1 < List.length names)%nat ->
  (forall s, In s names -> r ("n", "", s) = Fin (n s) /\ 0 < n s) ->
  (forall s, In s names -> has_v r s (vx s) (vy s) (vz s)) ->
  let rho := fun s => n s * mmp k s in
  let mean := fun v => Rsum (map (fun s => v s * rho s) names) / Rsum (map rho names) in
  returnsV (velocity (kx k) ions [PStr (join "+" names)] false) r (mean vx) (mean vy) (mean vz).
Proof.
  intros ions names k r n vx vy vz P U L Hn Hv. cbv zeta.
  eexists; split; [apply (velocity_com k ions names U L)|].
  apply com_velocity_val; [intros s Hs; apply Hn, Hs|exact Hv|].
  apply Rgt_not_eq, Rsum_pos_cons; [apply U|].
  intros s Hs. apply Rmult_lt_0_compat; [apply Hn, Hs|apply mmp_pos; [exact P|apply U, Hs]].
Qed.
Print Assumptions C15_centre_of_mass_velocity.

(** ... which lies between the smallest and the largest species component *)
Theorem C15_velocity_between_species :
  forall ions names k r n vx vy vz x y z lo hi, positive k -> usable ions names -> (1 < List.length names)%nat ->
  (forall s, In s names -> r ("n", "", s) = Fin (n s) /\ 0 < n s) ->
  (forall s, In s names -> has_v r s (vx s) (vy s) (vz s)) ->
  returnsV (velocity (kx k) ions [PStr (join "+" names)] false) r x y z ->
  ((forall s, In s names -> lo <= vx s <= hi) -> lo <= x <= hi) /\
  ((forall s, In s names -> lo <= vy s <= hi) -> lo <= y <= hi) /\
  ((forall s, In s names -> lo <= vz s <= hi) -> lo <= z <= hi).
Proof.
  intros ions names k r n vx vy vz x y z lo hi P U L Hn Hv H.
  pose proof (C15_centre_of_mass_velocity ions names k r n vx vy vz P U L Hn Hv) as M. cbv zeta in M.
  destruct H as (f & E & F). destruct M as (f' & E' & F'). rewrite E in E'. inversion E'; subst f'.
  rewrite F in F'. inversion F'; subst.
  assert (W : forall s, In s names -> 0 < n s * mmp k s).
  { intros s Hs. apply Rmult_lt_0_compat; [apply Hn, Hs|apply mmp_pos; [exact P|apply U, Hs]]. }
  split; [|split]; intros B; apply (Rmean_bounds (fun s => n s * mmp k s)); auto; apply U.
Qed.
Print Assumptions C15_velocity_between_species.

(* ================================================================ C16 *)
(** dv(s0,s1) = -dv(s1,s0), component by component, for every row (missing values included) *)
Theorem C16_drift_antisymmetric :
  forall (K : consts XR) ions s0 s1 m2q f, dv K ions s0 s1 m2q = Ok f ->
  exists g, dv K ions s1 s0 m2q = Ok g /\
  forall r i, vcomp i (f r) = aopp (vcomp i (g r)).
Proof. exact dv_antisym. Qed.
Print Assumptions C16_drift_antisymmetric.

Theorem C16_drift_is_difference :
  forall (K : consts XR) ions s0 s1, legal s0 -> legal s1 -> In s0 ions -> In s1 ions -> s0 <> s1 ->
  exists f, dv K ions s0 s1 false = Ok f /\
  forall r, f r = (asub (r ("v", "x", s0)) (r ("v", "x", s1)),
                   asub (r ("v", "y", s0)) (r ("v", "y", s1)),
                   asub (r ("v", "z", s0)) (r ("v", "z", s1))).
Proof.
  intros K ions s0 s1 L0 L1 I0 I1 Hne. eexists; split; [apply dv_pair; assumption|]. reflexivity.
Qed.
Print Assumptions C16_drift_is_difference.

Theorem C16_no_drift_with_itself :
  forall (K : consts XR) ions s m2q, dv K ions s s m2q = Err NotImplementedError.
Proof. intros K ions s m2q. unfold dv. rewrite String.eqb_refl. reflexivity. Qed.
Print Assumptions C16_no_drift_with_itself.

(* ================================================================ C17 *)
(** two species: half the reduced mass density times the squared drift (SI), however they are passed *)
Theorem C17_two_species_dynamic_pressure :
  forall ions s0 s1 k args r n vx vy vz p, positive k -> usable ions [s0; s1] ->
  (args = [PStr (join "+" [s0; s1])] \/ args = [PStr s0; PStr s1]) ->
  (forall s, In s [s0; s1] -> r ("n", "", s) = Fin (n s) /\ 0 < n s) ->
  (forall s, In s [s0; s1] -> has_v r s (vx s) (vy s) (vz s)) ->
  plain (pdynamic (kx k) ions args false) r p ->
  let rho := fun s => n s * mmp k s in
  p * Upth = 1 / 2 * (rho s0 * rho s1 / (rho s0 + rho s1) * Urho k)
             * (((vx s0 - vx s1) ^ 2 + (vy s0 - vy s1) ^ 2 + (vz s0 - vz s1) ^ 2) * Uv ^ 2) /\
  0 <= p /\ (p = 0 <-> vx s0 = vx s1 /\ vy s0 = vy s1 /\ vz s0 = vz s1).
Proof. exact pdynamic_two. Qed.
Print Assumptions C17_two_species_dynamic_pressure.

(** any number of species: kinetic energy of the drifts about the centre of mass, never negative,
    zero exactly without relative motion, and equal to the total minus the centre-of-mass part *)
Theorem C17_dynamic_pressure_any_species :
  forall ions names k args r n vx vy vz p, positive k -> usable ions names -> (1 < List.length names)%nat ->
  (args = [PStr (join "+" names)] \/ args = map PStr names) ->
  (forall s, In s names -> r ("n", "", s) = Fin (n s) /\ 0 < n s) ->
  (forall s, In s names -> has_v r s (vx s) (vy s) (vz s)) ->
  plain (pdynamic (kx k) ions args false) r p ->
  let rho := fun s => n s * mmp k s in
  let mean := fun v => Rsum (map (fun s => v s * rho s) names) / Rsum (map rho names) in
  p * Upth = 1 / 2 * Urho k * Uv ^ 2 *
    ((Rsum (map (fun s => (vx s * vx s + vy s * vy s + vz s * vz s) * rho s) names))
     - (mean vx * mean vx + mean vy * mean vy + mean vz * mean vz) * Rsum (map rho names)) /\
  0 <= p /\
  (p = 0 <-> forall s t, In s names -> In t names -> vx s = vx t /\ vy s = vy t /\ vz s = vz t).
Proof. exact pdynamic_many. Qed.
Example C17_ex : usable ["a"; "p1"] ["a"; "p1"] /\ (1 < List.length ["a"; "p1"])%nat.
Proof.
  split; [|simpl; lia]. split; [discriminate| | | |].
  - repeat constructor; simpl; intuition discriminate.
  - intros s [<-|[<-|[]]]; split; reflexivity.
  - auto.
  - intros s [<-|[<-|[]]]; eexists; reflexivity.
Qed.
Print Assumptions C17_dynamic_pressure_any_species.

Theorem C17_needs_two_species :
  forall (K : consts XR) ions s m2q, legal s -> In s ions -> pdynamic K ions [PStr s] m2q = Err ValueError.
Proof. intros K ions s m2q L I. unfold pdynamic. rewrite chk_one by assumption. reflexivity. Qed.
Print Assumptions C17_needs_two_species.

(** defect: with project_m2q a request for three species ends in an unbound local variable *)
Theorem C17_projected_three_species_refuted :
  exists ions args, chk_species ions args = Ok ["a"; "p1"; "p2"] /\
    forall K : consts XR, pdynamic K ions args true = Err UnboundLocalError.
Proof. exists ["a"; "p1"; "p2"], [PStr "a+p1+p2"]. split; reflexivity. Qed.
Print Assumptions C17_projected_three_species_refuted.

(* ================================================================ C18 *)
Theorem C18_sound_speed :
  forall ions names k r n w p c, positive k -> usable ions names ->
  (forall s, In s names -> r ("n", "", s) = Fin (n s) /\ 0 < n s) ->
  (forall s, In s names -> r ("w", "scalar", s) = Fin (w s)) ->
  returns (pth (kx k) ions [PStr (join "+" names)] "scalar") r p ->
  returns (sound_speed (kx k) ions [PStr (join "+" names)]) r c ->
  let rho := Rsum (map (fun s => n s * mmp k s) names) in
  0 <= c /\ (c * Uv) ^ 2 * (rho * Urho k) = 5 / 3 * (p * Upth).
Proof. exact sound_speed_law. Qed.
Print Assumptions C18_sound_speed.

Theorem C18_sound_speed_defined :
  forall ions names k r n w, positive k -> usable ions names ->
  (forall s, In s names -> r ("n", "", s) = Fin (n s) /\ 0 < n s) ->
  (forall s, In s names -> r ("w", "scalar", s) = Fin (w s)) ->
  exists c, returns (sound_speed (kx k) ions [PStr (join "+" names)]) r c.
Proof.
  intros ions names k r n w P U Hn Hw. eexists.
  apply (cs_total_val ions names k r n w P U (fun s Hs => proj1 (Hn s Hs)) Hw).
  - apply Rsum_pos_cons; [apply U|]. intros s Hs.
    apply Rmult_lt_0_compat; [apply Hn, Hs|apply mmp_pos; [exact P|apply U, Hs]].
  - apply Rsum_nonneg. intros y Hy. apply in_map_iff in Hy as [s [<- Hs]].
    apply Rpth_nonneg; [exact P|apply U, Hs|left; apply Hn, Hs].
Qed.
Print Assumptions C18_sound_speed_defined.

(* ================================================================ C19 *)
(** ca^2 mu0 rho = B^2 (SI) and ca >= 0 *)
Theorem C19_alfven_speed :
  forall ions names k r n bx by' bz c, positive k -> usable ions names ->
  (forall s, In s names -> r ("n", "", s) = Fin (n s) /\ 0 < n s) -> has_b r bx by' bz ->
  returns (ca (kx k) ions [PStr (join "+" names)]) r c ->
  let rho := Rsum (map (fun s => n s * mmp k s) names) in
  0 <= c /\ (c * Uv) ^ 2 * (c_mu0 k * (rho * Urho k)) = (bx ^ 2 + by' ^ 2 + bz ^ 2) * Ub ^ 2.
Proof. exact ca_law. Qed.
Print Assumptions C19_alfven_speed.

(** scaling B by q scales ca by |q| *)
Theorem C19_linear_in_field :
  forall ions names k r r' n bx by' bz q c c', positive k -> usable ions names ->
  (forall s, In s names -> r ("n", "", s) = Fin (n s) /\ r' ("n", "", s) = Fin (n s) /\ 0 < n s) ->
  has_b r bx by' bz -> has_b r' (q * bx) (q * by') (q * bz) ->
  returns (ca (kx k) ions [PStr (join "+" names)]) r c ->
  returns (ca (kx k) ions [PStr (join "+" names)]) r' c' -> c' = Rabs q * c.
Proof. exact ca_scaling. Qed.
Print Assumptions C19_linear_in_field.

(** more mass, smaller ca: larger densities, or more species, never increase it *)
Theorem C19_decreasing_in_density :
  forall ions names names' k r r' n n' bx by' bz c c', positive k ->
  usable ions names -> usable ions names' -> incl names names' ->
  (forall s, In s names -> r ("n", "", s) = Fin (n s) /\ 0 < n s /\ n s <= n' s) ->
  (forall s, In s names' -> r' ("n", "", s) = Fin (n' s) /\ 0 < n' s) ->
  has_b r bx by' bz -> has_b r' bx by' bz ->
  returns (ca (kx k) ions [PStr (join "+" names)]) r c ->
  returns (ca (kx k) ions [PStr (join "+" names')]) r' c' -> c' <= c.
Proof. exact ca_decreasing. Qed.
Print Assumptions C19_decreasing_in_density.

(* ================================================================ C20 *)
(** afsq = 1 + (beta_per - beta_par)/2 *)
Theorem C20_anisotropy_factor :
  forall ions names k r n wpar wper bx by' bz bpar bper a, positive k -> usable ions names ->
  (forall s, In s names -> r ("n", "", s) = Fin (n s)) ->
  (forall s, In s names -> r ("w", "par", s) = Fin (wpar s)) ->
  (forall s, In s names -> r ("w", "per", s) = Fin (wper s)) ->
  has_b r bx by' bz -> 0 < bx ^ 2 + by' ^ 2 + bz ^ 2 ->
  returns (beta (kx k) ions [PStr (join "+" names)] "par") r bpar ->
  returns (beta (kx k) ions [PStr (join "+" names)] "per") r bper ->
  returns (afsq (kx k) ions [PStr (join "+" names)] false) r a ->
  a = 1 + (bper - bpar) / 2.
Proof. exact afsq_law. Qed.
Print Assumptions C20_anisotropy_factor.

Theorem C20_anisotropy_factor_additive :
  forall ions names k r n wpar wper bx by' bz, usable ions names ->
  (forall s, In s names -> r ("n", "", s) = Fin (n s)) ->
  (forall s, In s names -> r ("w", "par", s) = Fin (wpar s)) ->
  (forall s, In s names -> r ("w", "per", s) = Fin (wper s)) ->
  has_b r bx by' bz -> 0 < bx ^ 2 + by' ^ 2 + bz ^ 2 ->
  exists a : string -> R,
    (forall s, In s names -> returns (afsq (kx k) ions [PStr s] false) r (a s)) /\
    returns (afsq (kx k) ions [PStr (join "+" names)] false) r (1 + Rsum (map (fun s => a s - 1) names)) /\
    ((forall s, In s names -> wpar s = wper s) ->
       returns (afsq (kx k) ions [PStr (join "+" names)] false) r 1).
Proof. exact afsq_additive. Qed.
Print Assumptions C20_anisotropy_factor_additive.

(** caani^2 = ca^2 afsq; NaN beyond the firehose limit *)
Theorem C20_caani :
  forall ions names k r n wpar wper bx by' bz c a, positive k -> usable ions names ->
  (forall s, In s names -> r ("n", "", s) = Fin (n s) /\ 0 < n s) ->
  (forall s, In s names -> r ("w", "par", s) = Fin (wpar s)) ->
  (forall s, In s names -> r ("w", "per", s) = Fin (wper s)) ->
  has_b r bx by' bz -> 0 < bx ^ 2 + by' ^ 2 + bz ^ 2 ->
  returns (ca (kx k) ions [PStr (join "+" names)]) r c ->
  returns (afsq (kx k) ions [PStr (join "+" names)] false) r a ->
  exists f, caani (kx k) ions [PStr (join "+" names)] false = Ok f /\
    (0 <= a -> exists x, f r = Fin x /\ 0 <= x /\ x ^ 2 = c ^ 2 * a) /\
    (a < 0 -> f r = NaN).
Proof. exact caani_law. Qed.
Print Assumptions C20_caani.

(* ================================================================ C21 *)
Theorem C21_coulomb_logarithm_symmetric :
  forall (K : consts XR) ions s0 s1 f, lnlambda K ions s0 s1 = Ok f ->
  exists g, lnlambda K ions s1 s0 = Ok g /\ forall r, g r = f r.
Proof. exact lnlambda_sym. Qed.
Print Assumptions C21_coulomb_logarithm_symmetric.

(* ================================================================ C22 *)
(** the collision frequency needs exactly two different single species *)
Theorem C22_same_species_rejected :
  forall k erf ions s both, usable ions [s] -> nuc (kx k) ions erf s s both = Err NotImplementedError.
Proof. exact nuc_same. Qed.
Print Assumptions C22_same_species_rejected.

Theorem C22_totals_rejected :
  forall (K : consts XR) erf ions names s both, usable ions names -> (1 < List.length names)%nat ->
  legal s -> In s ions ->
  nuc K ions erf (join "+" names) s both = Err ValueError /\
  nuc K ions erf s (join "+" names) both = Err ValueError.
Proof. exact nuc_totals. Qed.
Print Assumptions C22_totals_rejected.

(** with both_species the two directions are added, so the order of the species is irrelevant *)
Theorem C22_both_directions_added :
  forall k erf erfR ions sa sb r na nb wsa wsb wpa wpb ax ay az bx by' bz,
  positive k -> consistent k -> usable ions [sa] -> usable ions [sb] -> sa <> sb ->
  0 < zcharge sa -> 0 < zcharge sb -> (forall x, erf (Fin x) = Fin (erfR x)) ->
  r ("n", "", sa) = Fin na -> r ("n", "", sb) = Fin nb ->
  r ("w", "scalar", sa) = Fin wsa -> r ("w", "scalar", sb) = Fin wsb ->
  r ("w", "par", sa) = Fin wpa -> r ("w", "par", sb) = Fin wpb ->
  has_v r sa ax ay az -> has_v r sb bx by' bz ->
  0 < na -> 0 < nb -> 0 < wsa -> 0 < wsb -> 0 < wpa -> 0 < wpb ->
  0 < (ax - bx) ^ 2 + (ay - by') ^ 2 + (az - bz) ^ 2 ->
  exists nuab nuba,
    plain (nuc (kx k) ions erf sa sb false) r nuab /\
    plain (nuc (kx k) ions erf sb sa false) r nuba /\
    plain (nuc (kx k) ions erf sa sb true) r (nuab + nuba) /\
    plain (nuc (kx k) ions erf sb sa true) r (nuab + nuba).
Proof. exact nuc_both. Qed.
Print Assumptions C22_both_directions_added.

(** the limit of no drift is not taken: the result is NaN (erf 0 = 0) *)
Theorem C22_zero_drift_undefined_refuted :
  forall k erf ions sa sb both r na nb wsa wsb wpa wpb ax ay az,
  positive k -> usable ions [sa] -> usable ions [sb] -> sa <> sb -> 0 < zcharge sa -> 0 < zcharge sb ->
  erf (Fin 0) = Fin 0 ->
  r ("n", "", sa) = Fin na -> r ("n", "", sb) = Fin nb ->
  r ("w", "scalar", sa) = Fin wsa -> r ("w", "scalar", sb) = Fin wsb ->
  r ("w", "par", sa) = Fin wpa -> r ("w", "par", sb) = Fin wpb ->
  has_v r sa ax ay az -> has_v r sb ax ay az ->
  0 < na -> 0 < nb -> 0 < wsa -> 0 < wsb -> 0 < wpa -> 0 < wpb ->
  exists f, nuc (kx k) ions erf sa sb both = Ok f /\ f r = NaN.
Proof. exact nuc_zero_drift. Qed.
Print Assumptions C22_zero_drift_undefined_refuted.

(* ================================================================ C23 *)
(** the estimate exists exactly when there are no electrons and exactly one of p, p1 *)
Theorem C23_when_electrons_can_be_estimated :
  forall species,
  (exists t, electron_ref species = Ok t) <->
  ~ In "e" species /\ ((In "p" species /\ ~ In "p1" species) \/ (In "p1" species /\ ~ In "p" species)).
Proof. exact electron_ref_iff. Qed.
Print Assumptions C23_when_electrons_can_be_estimated.

(** quasi-neutrality and zero current *)
Theorem C23_neutral_and_current_free :
  forall ions species k t r n vx vy vz wp, positive k -> usable ions species ->
  electron_ref species = Ok t ->
  (forall s, In s species -> r ("n", "", s) = Fin (n s) /\ 0 < n s) ->
  (forall s, In s species -> has_v r s (vx s) (vy s) (vz s)) -> r ("w", "scalar", t) = Fin wp ->
  let charge := fun s => zcharge s * n s in
  exists f ne ex ey ez we,
    estimate_electrons (kx k) ions species = Ok f /\
    f r = {| el_n := Fin ne; el_v := (Fin ex, Fin ey, Fin ez); el_w := Fin we |} /\
    0 < ne /\
    Rsum (map charge species) + zcharge "e" * ne = 0 /\
    Rsum (map (fun s => charge s * vx s) species) + zcharge "e" * ne * ex = 0 /\
    Rsum (map (fun s => charge s * vy s) species) + zcharge "e" * ne * ey = 0 /\
    Rsum (map (fun s => charge s * vz s) species) + zcharge "e" * ne * ez = 0.
Proof. exact electrons_neutral. Qed.
Example C23_ex : electron_ref ["a"; "p1"] = Ok "p1". Proof. reflexivity. Qed.
Print Assumptions C23_neutral_and_current_free.

(* ================================================================ C24 *)
(** What is estimated is n_e T_e = n_p T_p ... *)
Theorem C24_electron_pressure_equals_proton_pressure_partial :
  forall ions species k t r n vx vy vz wp, positive k -> consistent k -> usable ions species ->
  electron_ref species = Ok t ->
  (forall s, In s species -> r ("n", "", s) = Fin (n s) /\ 0 < n s) ->
  (forall s, In s species -> has_v r s (vx s) (vy s) (vz s)) -> r ("w", "scalar", t) = Fin wp -> 0 <= wp ->
  exists f e ne we,
    estimate_electrons (kx k) ions species = Ok f /\ f r = e /\ el_n e = Fin ne /\ el_w e = Fin we /\
    ne * Rtemp k we "e" = n t * Rtemp k wp t /\
    (Rtemp k we "e" = Rtemp k wp t <-> ne = n t \/ wp = 0).
Proof. exact electron_temperature. Qed.
Print Assumptions C24_electron_pressure_equals_proton_pressure_partial.

(** ... so T_e = T_p fails whenever there is an ion besides the protons. *)
Theorem C24_equal_temperature_refuted :
  exists ions species k t r f ne we wp, positive k /\ consistent k /\ usable ions species /\
    electron_ref species = Ok t /\ r ("w", "scalar", t) = Fin wp /\
    estimate_electrons (kx k) ions species = Ok f /\
    el_n (f r) = Fin ne /\ el_w (f r) = Fin we /\ Rtemp k we "e" <> Rtemp k wp t.
Proof. exact electron_temperature_refuted. Qed.
Print Assumptions C24_equal_temperature_refuted.

(* ================================================================ C88 *)
(** the kinetic energy flux can never be computed: the unit it divides by does not exist *)
Theorem C88_kinetic_energy_flux_refuted :
  forall k ions names, usable ions names ->
  kinetic_energy_flux (kx k) ions [PStr (join "+" names)] = Err AttributeError.
Proof. exact wk_raises. Qed.
Print Assumptions C88_kinetic_energy_flux_refuted.

(* ============================================================ the calls above do return *)
(** The laws above speak about the value a call returns; here: the calls do return a finite value. *)
Section Defined.
Lemma weight_pos ions names k (n : string -> R) :
  positive k -> usable ions names -> (forall s, In s names -> 0 < n s) ->
  0 < Rsum (map (fun s => n s * mmp k s) names).
Proof.
  intros P U Hn. apply Rsum_pos_cons; [apply U|]. intros s Hs.
  apply Rmult_lt_0_compat; [apply Hn, Hs|apply mmp_pos; [exact P|apply U, Hs]].
Qed.

Theorem C12_pressure_and_temperature_defined :
  forall ions s k c r n w, positive k -> usable ions [s] ->
  r ("n", "", s) = Fin n -> r ("w", c, s) = Fin w ->
  (exists p, returns (pth (kx k) ions [PStr s] c) r p) /\
  (exists T, returns (temperature (kx k) ions [PStr s] c) r T).
Proof.
  intros ions s k c r n w P U Hn Hw. split; eexists.
  - exact (pth_one_val ions k c r s n w U Hn Hw).
  - exact (temp_one_val ions k c r s w P U Hw).
Qed.

Theorem C13_beta_defined :
  forall ions names k c r n w bx by' bz, usable ions names ->
  (forall s, In s names -> r ("n", "", s) = Fin (n s)) ->
  (forall s, In s names -> r ("w", c, s) = Fin (w s)) ->
  has_b r bx by' bz -> 0 < bx ^ 2 + by' ^ 2 + bz ^ 2 ->
  exists b, returns (beta (kx k) ions [PStr (join "+" names)] c) r b.
Proof.
  intros ions names k c r n w bx by' bz U Hn Hw Hb Hpos. eexists.
  apply (beta_total_val ions names k c r n w bx by' bz U Hn Hw Hb). nra.
Qed.

Theorem C14_anisotropy_defined :
  forall ions names k r n wpar wper, positive k -> usable ions names ->
  (forall s, In s names -> r ("n", "", s) = Fin (n s) /\ 0 < n s) ->
  (forall s, In s names -> r ("w", "par", s) = Fin (wpar s) /\ 0 < wpar s) ->
  (forall s, In s names -> r ("w", "per", s) = Fin (wper s)) ->
  exists a, returns (anisotropy (kx k) ions [PStr (join "+" names)]) r a.
Proof.
  intros ions names k r n wpar wper P U Hn Ha He. eexists.
  apply (aniso_total_val ions names k r n wpar wper U (fun s Hs => proj1 (Hn s Hs)) (fun s Hs => proj1 (Ha s Hs)) He).
  apply Rgt_not_eq, Rsum_pos_cons; [apply U|]. intros s Hs.
  apply Rpth_pos; [exact P|apply U, Hs|apply Hn, Hs|apply Rgt_not_eq, Ha, Hs].
Qed.

Theorem C17_dynamic_pressure_defined :
  forall ions names k args r n vx vy vz, positive k -> usable ions names -> (1 < List.length names)%nat ->
  (args = [PStr (join "+" names)] \/ args = map PStr names) ->
  (forall s, In s names -> r ("n", "", s) = Fin (n s) /\ 0 < n s) ->
  (forall s, In s names -> has_v r s (vx s) (vy s) (vz s)) ->
  exists p, plain (pdynamic (kx k) ions args false) r p.
Proof.
  intros ions names k args r n vx vy vz P U L Ha Hn Hv. eexists.
  apply (pdynamic_val k ions names args r n vx vy vz U L Ha (fun s Hs => proj1 (Hn s Hs)) Hv).
  apply Rgt_not_eq, (weight_pos ions names k n P U). intros s Hs; apply Hn, Hs.
Qed.

Theorem C19_alfven_speed_defined :
  forall ions names k r n bx by' bz, positive k -> usable ions names ->
  (forall s, In s names -> r ("n", "", s) = Fin (n s) /\ 0 < n s) -> has_b r bx by' bz ->
  exists c, returns (ca (kx k) ions [PStr (join "+" names)]) r c.
Proof.
  intros ions names k r n bx by' bz P U Hn Hb. eexists.
  apply (ca_total_val ions names k r n bx by' bz P U (fun s Hs => proj1 (Hn s Hs)) Hb).
  apply (weight_pos ions names k n P U). intros s Hs; apply Hn, Hs.
Qed.

Theorem C20_anisotropy_factor_defined :
  forall ions names k r n wpar wper bx by' bz, usable ions names ->
  (forall s, In s names -> r ("n", "", s) = Fin (n s)) ->
  (forall s, In s names -> r ("w", "par", s) = Fin (wpar s)) ->
  (forall s, In s names -> r ("w", "per", s) = Fin (wper s)) ->
  has_b r bx by' bz -> 0 < bx ^ 2 + by' ^ 2 + bz ^ 2 ->
  exists a, returns (afsq (kx k) ions [PStr (join "+" names)] false) r a.
Proof.
  intros ions names k r n wpar wper bx by' bz U Hn Ha He Hb Hpos. eexists.
  apply (afsq_total_val ions names k r n wpar wper bx by' bz U Hn Ha He Hb). nra.
Qed.
End Defined.
