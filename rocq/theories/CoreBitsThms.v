(** C223 (entropy of one ion), C224 (tensors). *)
From Coq Require Import Reals List String Ascii Bool Arith ZArith Lra Lia.
From Verif Require Import Py PyStr Num Species Frame FrameProofs Plasma PlasmaProofs PlasmaProofs2 PlasmaThms PlasmaExtraThms Tight4Thms CoreBits.
Import ListNotations.
Open Scope string_scope.
Open Scope list_scope.
Open Scope R_scope.

(* ================================================================ C223 *)
(** The specific entropy of an ion is p rho^(-5/3) in SI units over its unit (1e4 over the elementary charge), with p = rho w^2 / 2. *)
Theorem C223_entropy_of_an_ion :
  forall k s r n w, positive k -> 0 < c_e k -> known s -> r ("n", "", s) = Fin n -> 0 < n -> r ("w", "scalar", s) = Fin w ->
  exists f S, ion_specific_entropy (kx k) s = Ok f /\ f r = Fin S /\
    let rho := n * mmp k s * Urho k in
    S * (10000 / c_e k) = (1 / 2 * rho * (w * Uv) ^ 2) * Rpower rho (- (5 / 3)).
Proof.
  intros k s r n w P He K Hn N Hw. unfold ion_specific_entropy. rewrite ion_pth_ok, ion_rho_ok by exact K. cbn [bind].
  eexists. eexists. split; [reflexivity|]. cbv beta.
  rewrite (pth_fun_fin k "scalar" s r n w Hn Hw), (rho_fun_fin k s r n Hn).
  assert (W : 0 < n * mmp k s) by (apply Rmult_lt_0_compat; [exact N|apply mmp_pos; assumption]).
  split; [apply entropy_fin; [exact He|apply Urho_pos, P|exact W]|].
  cbv zeta. unfold Uentropy, Rpth, Rrho. pose proof Upth_pos. field. lra.
Qed.
Print Assumptions C223_entropy_of_an_ion.
(** ... and what the plasma that holds the ion reports for that species alone. *)
Theorem C223_as_the_plasma_reports :
  forall k ions s r n w, positive k -> 0 < c_e k -> usable ions [s] -> r ("n", "", s) = Fin n -> 0 < n -> r ("w", "scalar", s) = Fin w ->
  exists f S, ion_specific_entropy (kx k) s = Ok f /\ f r = Fin S /\ returns (specific_entropy (kx k) ions [PStr s]) r S.
Proof.
  intros k ions s r n w P He U Hn N Hw. assert (K : known s) by (apply (us_known _ _ U s); left; reflexivity).
  destruct (C223_entropy_of_an_ion k s r n w P He K Hn N Hw) as (f & S0 & E & V & Q).
  exists f, S0. split; [exact E|]. split; [exact V|].
  assert (PT : returns (pth (kx k) ions [PStr (join "+" [s])] "scalar") r (Rpth k n w s)).
  { replace (Rpth k n w s) with (Rsum (map (fun s => Rpth k n w s) [s])) by (cbn; lra).
    apply (pth_total_val ions [s] k "scalar" r (fun _ => n) (fun _ => w) U); intros x [<-|[]]; assumption. }
  destruct (C113_specific_entropy ions [s] k r (fun _ => n) (fun _ => w) (Rpth k n w s) P He U) as (S1 & R1 & Q1).
  1,2: intros x [<-|[]]; auto.
  { exact PT. }
  replace S0 with S1; [exact R1|]. apply Rmult_eq_reg_r with (10000 / c_e k).
  - rewrite Q1, Q. cbn [map Rsum fold_right]. rewrite Rplus_0_r. f_equal. unfold Rpth, Rrho. pose proof Upth_pos. field. lra.
  - apply Rgt_not_eq. unfold Rdiv. apply Rmult_lt_0_compat; [lra|apply Rinv_0_lt_compat, He].
Qed.
Print Assumptions C223_as_the_plasma_reports.
(** Only the species with known masses have one. *)
Theorem C223_unknown_ion : forall (K : consts XR) s, ~ In s (proton_names ++ alpha_names ++ ["e"]) -> ion_specific_entropy K s = Err KeyError.
Proof. intros K s N. unfold ion_specific_entropy. destruct (C182_refusals K "scalar" s) as [H _]. destruct (H N) as (_ & E & _). rewrite E. reflexivity. Qed.
Print Assumptions C223_unknown_ion.
Example C223_ex : exists f S, ion_specific_entropy (kx ex_k) "p1" = Ok f /\ f ex_row = Fin S.
Proof.
  assert (K : known "p1") by (eexists; reflexivity).
  destruct (C223_entropy_of_an_ion ex_k "p1" ex_row 20 40 ex_positive) as (f & S0 & E & V & _); [cbn; lra|exact K|reflexivity|lra|reflexivity|]. exists f, S0. auto.
Qed.

(* ================================================================ C224 *)
Definition has_col {T} (d : table (T := T)) (c : string) : Prop := In c (tb_cols d).
Lemma validate_ok {T} (d : table (T := T)) : validate d = Ok tt <-> has_col d "per" /\ has_col d "par" /\ has_col d "scalar".
Proof.
  unfold validate, has_col. cbn [forallb]. destruct (mem_str "per" (tb_cols d)) eqn:A, (mem_str "par" (tb_cols d)) eqn:B, (mem_str "scalar" (tb_cols d)) eqn:C; cbn [andb];
    rewrite <- ?mem_str_In, ?A, ?B, ?C; split; intro H; repeat split; try reflexivity; try discriminate; destruct H as (X & Y & Z); congruence.
Qed.
(** A tensor can be made of exactly the tables with rows and with the columns per, par and scalar, and holds the table; anything else is a
    ValueError. *)
Theorem C224_made_of : forall (T : Type) (d : table (T := T)),
  (tb_rows d <> [] -> has_col d "per" -> has_col d "par" -> has_col d "scalar" -> tensor_new d = Ok d) /\
  (tb_rows d = [] \/ ~ has_col d "per" \/ ~ has_col d "par" \/ ~ has_col d "scalar" -> tensor_new d = Err ValueError).
Proof.
  intros T d. split.
  - intros R A B C. assert (V : validate d = Ok tt) by (apply validate_ok; auto). unfold tensor_new, tensor_set_data. rewrite V.
    destruct (tb_cols d) eqn:E; [unfold has_col in A; rewrite E in A; destruct A|]. destruct (tb_rows d); [contradiction|]. reflexivity.
  - intros H. unfold tensor_new, tensor_set_data. destruct (tb_rows d) eqn:ER; [rewrite orb_true_r; reflexivity|].
    destruct H as [H|H]; [discriminate|]. destruct (match tb_cols d with [] => true | _ => false end || false)%bool; [reflexivity|].
    assert (V : validate d = Err ValueError).
    { destruct (validate d) as [[]|e] eqn:E; [apply validate_ok in E; destruct E as (A & B & C); tauto|]. unfold validate in E. destruct (forallb _ _); congruence. }
    rewrite V. reflexivity.
Qed.
Print Assumptions C224_made_of.
(** set_data accepts the same tables as the constructor, and then leaves the tensor as it was. *)
Theorem C224_new_data_refuted : forall (T : Type) (t new : table (T := T)),
  tensor_set_data (Some t) new = (match tensor_new new with Ok _ => Ok (Some t) | Err e => Err e end).
Proof.
  intros T t new. unfold tensor_new, tensor_set_data. destruct (_ || _)%bool; [reflexivity|]. destruct (validate new) as [[]|e] eqn:E; reflexivity.
Qed.
Print Assumptions C224_new_data_refuted.
Example C224_ex : let d := mkTable (T := Z) ["par"; "per"; "scalar"] [(0%Z, fun _ => 1%Z)] in let e := mkTable (T := Z) ["scalar"; "per"; "par"] [(0%Z, fun _ => 2%Z)] in
  tensor_new d = Ok d /\ tensor_set_data (Some d) e = Ok (Some d) /\ d <> e /\ tensor_new (mkTable (T := Z) ["par"; "per"] [(0%Z, fun _ => 1%Z)]) = Err ValueError.
Proof. cbv zeta. repeat split; try reflexivity. discriminate. Qed.

(* ================================================================ C239 *)
(** No tensor that can be made has a magnitude: the table has at least three columns and there are two weights. *)
Theorem C239_magnitude_refuted : forall {T} {A : Arith T} (d : table (T := T)), tensor_new d = Ok d -> tensor_magnitude d = Err ValueError.
Proof.
  intros T A d H. assert (HC : has_col d "per" /\ has_col d "par" /\ has_col d "scalar").
  { apply validate_ok. unfold tensor_new in H. destruct (tensor_set_data None d) as [o|e]; [|discriminate H]. cbn [bind] in H. destruct (validate d) as [[]|e]; [reflexivity|discriminate H]. }
  destruct HC as (HA & HB & HD). unfold has_col in *. assert (L : (3 <= List.length (tb_cols d))%nat).
  { change 3%nat with (List.length ["per"; "par"; "scalar"]). apply NoDup_incl_length; [repeat (constructor; [cbn; intro X; repeat (destruct X as [X|X]; [discriminate X|]); exact X|]); constructor|]. intros c [<-|[<-|[<-|[]]]]; assumption. }
  unfold tensor_magnitude. replace (List.length (tb_cols d) =? List.length (weights (T := T)))%nat with false; [reflexivity|]. symmetry. apply Nat.eqb_neq. cbn. lia.
Qed.
(** A table of just a parallel and a perpendicular column would have one third of the one plus two thirds of the other. *)
Theorem C239_two_columns : forall rows cols, cols = ["par"; "per"] \/ cols = ["per"; "par"] ->
  tensor_magnitude (mkTable (T := XR) cols (map (fun zpq => (fst zpq, fun c => if String.eqb c "par" then Fin (fst (snd zpq)) else Fin (snd (snd zpq)))) rows)) =
  Ok (map (fun zpq : Z * (R * R) => Fin (fst (snd zpq) / 3 + 2 * snd (snd zpq) / 3)) rows).
Proof.
  intros rows cols HC. unfold tensor_magnitude. cbn [tb_cols tb_rows]. destruct HC as [-> | ->]; cbn [List.length Nat.eqb weights]; f_equal; rewrite map_map; apply map_ext; intros [z [p q]]; cbn [map fst snd];
    unfold weight_of; cbn [find weights fst snd String.eqb Ascii.eqb Bool.eqb option_map]; rewrite !fin_ofZ, !fin_div by lra; rewrite !fin_mul.
  - change [Fin (p * (1 / 3)); Fin (q * (2 / 3))] with (map Fin [p * (1 / 3); q * (2 / 3)]). rewrite sum_skip_fin. f_equal. unfold Rsum. cbn [fold_right]. field.
  - change [Fin (q * (2 / 3)); Fin (p * (1 / 3))] with (map Fin [q * (2 / 3); p * (1 / 3)]). rewrite sum_skip_fin. f_equal. unfold Rsum. cbn [fold_right]. field.
Qed.
Example tensor239 : let d := mkTable (T := XR) ["par"; "per"; "scalar"] [(0%Z, fun _ => Fin 1)] in tensor_new d = Ok d /\ tensor_magnitude d = Err ValueError.
Proof. split; [reflexivity|]. apply C239_magnitude_refuted. reflexivity. Qed.
