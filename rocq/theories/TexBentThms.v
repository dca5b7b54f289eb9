(** C101 for the texts themselves, second part: the bent curves, and the two formulas that are wrong. *)
From Coq Require Import Reals Lra Lia List String Ascii Bool Arith.
From Verif Require Import Py PyStr Num FitCore FitFuncs MoreFits FitFuncsThms FitShapeThms MoreFitsThms TexInfo TexFormula TexFormulaThms.
Import ListNotations.
Open Scope string_scope.
Open Scope list_scope.
Open Scope R_scope.

(** The bent curves. Their formulas speak of further names; [gives] asks for values of these. *)
(** The environment with other values for some names. *)
Fixpoint assign (l : list (string * R)) (env : string -> R) (v : string) : R :=
  match l with [] => env v | (n, r) :: l' => if String.eqb n v then r else assign l' env v end.
Fixpoint all_hold (env : string -> R) (y : R) (es : list equation) : Prop :=
  match es with [] => True | e :: r => (equation_holds (at_index "1" env) y e /\ equation_holds (at_index "2" env) y e) /\ all_hold env y r end.
Lemma says_all s env y eqs : read s = Some eqs -> eqs <> [] -> (says s env y <-> all_hold env y eqs).
Proof.
  intros E N. rewrite (says_read _ _ _ _ E N). clear. induction eqs as [|e r IH]; cbn [all_hold In]; [split; [tauto|intros _ e []]|].
  rewrite <- IH. split; [intros H; auto|intros [H K] e' [<-|X]; auto].
Qed.
Lemma ex_val a b : (True -> exists v : R, Some a = Some v /\ Some b = Some v) <-> a = b.
Proof. split; [intros H; destruct (H I) as (v & A & B); congruence|intros -> _; eauto]. Qed.
Lemma ex_div a b c : (True -> exists v : R, Some a = Some v /\ (if Req_EM_T c 0 then (None : option R) else Some (b / c)) = Some v) <-> c <> 0 /\ a = b / c.
Proof.
  destruct (Req_EM_T c 0) as [Z|N]; [split; [intros H; destruct (H I) as (v & _ & B); discriminate|tauto]|].
  rewrite ex_val. tauto.
Qed.
Lemma one_val (a y : R) : (True -> Some a = Some y) <-> a = y.
Proof. split; [intros H; specialize (H I); congruence|intros -> _; reflexivity]. Qed.
Lemma gives_iff s C env y (P : (string -> R) -> Prop) : (forall env', says s env' y <-> P env') ->
  (gives s C env y <-> exists env', env' "x" = env "x" /\ Forall (fun a => env' (subscripted a) = env (subscripted a)) (c_args C) /\ P env').
Proof.
  intros H. unfold gives. split; intros (e & A & B & K); exists e; (split; [exact A|split; [|apply H, K]]).
  - apply Forall_forall. exact B.
  - rewrite Forall_forall in B. exact B.
Qed.
Ltac reads s := let r := eval vm_compute in (read s) in
  let RD := fresh "RD" in assert (RD : read s = r) by (vm_compute; reflexivity);
  match goal with |- context [gives s ?C ?env ?y] => let q := match r with Some ?q => q end in rewrite (gives_iff s C env y _ (fun env' => says_all s env' y q RD ltac:(discriminate))) end; clear RD;
  cbn [all_hold]; unfold equation_holds; cbn [e_cond e_lhs e_rhs cond_met meaning opt2 at_index].

Lemma ex_mdiv a b c k : (True -> exists v : R, Some a = Some v /\
    match (if Req_EM_T c 0 then (None : option R) else Some (b / c)) with Some z => Some (k * z) | None => None end = Some v) <-> c <> 0 /\ a = k * (b / c).
Proof. destruct (Req_EM_T c 0) as [Z|N]; [split; [intros H; destruct (H I) as (v & _ & B); discriminate|tauto]|rewrite ex_val; tauto]. Qed.
Lemma ex_sdiv a b c k : (True -> exists v : R, Some a = Some v /\
    match (if Req_EM_T c 0 then (None : option R) else Some (b / c)) with Some z => Some (k - z) | None => None end = Some v) <-> c <> 0 /\ a = k - (b / c).
Proof. destruct (Req_EM_T c 0) as [Z|N]; [split; [intros H; destruct (H I) as (v & _ & B); discriminate|tauto]|rewrite ex_val; tauto]. Qed.
Lemma ex_adiv a b c : (True -> exists v : R, Some a = Some v /\
    match (if Req_EM_T c 0 then (None : option R) else Some (b / c)) with Some z => Some (atan z) | None => None end = Some v) <-> c <> 0 /\ a = atan (b / c).
Proof. destruct (Req_EM_T c 0) as [Z|N]; [split; [intros H; destruct (H I) as (v & _ & B); discriminate|tauto]|rewrite ex_val; tauto]. Qed.
Ltac plain := rewrite ?ex_val, ?ex_div, ?ex_mdiv, ?ex_sdiv, ?ex_adiv, ?one_val.
Ltac params := repeat match goal with H : Forall _ (_ :: _) |- _ => inversion_clear H end;
  repeat match goal with H : ?e (subscripted ?a) = _ |- _ => let r := eval vm_compute in (subscripted a) in change (subscripted a) with r in H; cbn in H end;
  repeat match goal with H : Forall _ [] |- _ => clear H end.
Ltac choose l env := exists (assign l env); split; [reflexivity|split; [repeat constructor; reflexivity|]]; plain; cbn [assign String.eqb Ascii.eqb Bool.eqb].
Theorem C101_text_of_two_lines :
  forall g env y, gives tex_TwoLine (TwoLine g) env y <-> fitted (TwoLine g) env = Fin y.
Proof.
  intros g env y. reads tex_TwoLine. cls. unfold twoline. rewrite !fin_sub, !fin_mul, fin_min, <- fin_eq_iff. split.
  - intros (env' & EX & AG & SY). unfold TwoLine in AG. cbn [c_args] in AG. revert SY. plain. intros ((E & _) & (E1 & E2) & _).
    params. rewrite <- E, E1, E2. congruence.
  - intros E. choose [("y_1", env "m_1" * (env "x" - env "x_1")); ("y_2", env "m_2" * (env "x" - env "x_2"))] env.
    repeat split; exact E.
Qed.
Print Assumptions C101_text_of_two_lines.
(** HingeMin and HingeMax: the second slope is the one that makes the lines meet at h. *)
Theorem C101_text_of_hinge_min :
  forall g env y, env "h" <> env "x_2" -> (gives tex_HingeMin (HingeMin g) env y <-> fitted (HingeMin g) env = Fin y).
Proof.
  intros g env y N. reads tex_HingeMin. cls. unfold hinge_min, hinge_m2. rewrite !fin_sub, !fin_mul, fin_div, !fin_mul, fin_min, <- fin_eq_iff by lra. split.
  - intros (env' & EX & AG & SY). unfold HingeMin in AG. cbn [c_args] in AG. revert SY. plain. intros ((E & _) & ((NZ & E1) & _) & _).
    params. rewrite <- E, E1. replace (env "m_1" * (env "h" - env "x_1") / (env "h" - env "x_2")) with (env "m_1" * ((env "h" - env "x_1") / (env "h" - env "x_2"))) by (field; lra). congruence.
  - intros E. choose [("m_2", env "m_1" * ((env "h" - env "x_1") / (env "h" - env "x_2")))] env.
    rewrite <- E. replace (env "m_1" * (env "h" - env "x_1") / (env "h" - env "x_2")) with (env "m_1" * ((env "h" - env "x_1") / (env "h" - env "x_2"))) by (field; lra).
    repeat split; lra.
Qed.
Print Assumptions C101_text_of_hinge_min.
Theorem C101_text_of_hinge_max :
  forall g env y, env "h" <> env "x_2" -> (gives tex_HingeMax (HingeMax g) env y <-> fitted (HingeMax g) env = Fin y).
Proof.
  intros g env y N. reads tex_HingeMax. cls. unfold hinge_max, hinge_m2. rewrite !fin_sub, !fin_mul, fin_div, !fin_mul, fin_max, <- fin_eq_iff by lra. split.
  - intros (env' & EX & AG & SY). unfold HingeMax in AG. cbn [c_args] in AG. revert SY. plain. intros ((E & _) & ((NZ & E1) & _) & _).
    params. rewrite <- E, E1. replace (env "m_1" * (env "h" - env "x_1") / (env "h" - env "x_2")) with (env "m_1" * ((env "h" - env "x_1") / (env "h" - env "x_2"))) by (field; lra). congruence.
  - intros E. choose [("m_2", env "m_1" * ((env "h" - env "x_1") / (env "h" - env "x_2")))] env.
    rewrite <- E. replace (env "m_1" * (env "h" - env "x_1") / (env "h" - env "x_2")) with (env "m_1" * ((env "h" - env "x_1") / (env "h" - env "x_2"))) by (field; lra).
    repeat split; lra.
Qed.
Print Assumptions C101_text_of_hinge_max.
Theorem C101_text_of_hinge_at_point :
  forall g env y, env "m_1" <> 0 -> env "m_2" <> 0 -> (gives tex_HingeAtPoint (HingeAtPoint g) env y <-> fitted (HingeAtPoint g) env = Fin y).
Proof.
  intros g env y N1 N2. reads tex_HingeAtPoint. cls. unfold hinge_at_point. rewrite !fin_div, !fin_sub, !fin_mul, fin_min, <- fin_eq_iff by assumption. split.
  - intros (env' & EX & AG & SY). unfold HingeAtPoint in AG. cbn [c_args] in AG. revert SY. plain. intros ((E & _) & (E1 & E2) & ((_ & E3) & (_ & E4)) & _).
    params. rewrite <- E, E1, E2, E3, E4. congruence.
  - intros E. choose [("x_1", env "x_h" - env "y_h" / env "m_1"); ("x_2", env "x_h" - env "y_h" / env "m_2");
      ("y_1", env "m_1" * (env "x" - (env "x_h" - env "y_h" / env "m_1"))); ("y_2", env "m_2" * (env "x" - (env "x_h" - env "y_h" / env "m_2")))] env.
    repeat split; first [exact E|assumption].
Qed.
Print Assumptions C101_text_of_hinge_at_point.
(** HingeSaturation: away from the slopes that count as none. *)
Theorem C101_text_of_hinge_saturation :
  forall gx gy env y, env "x_h" <> env "x_1" -> 1 / 1000000000000000 < Rabs (env "m_2") ->
  (gives tex_HingeSaturation (HingeSaturation gx gy) env y <-> fitted (HingeSaturation gx gy) env = Fin y).
Proof.
  intros gx gy env y N L. assert (N2 : env "m_2" <> 0) by (intros Z; rewrite Z, Rabs_R0 in L; lra).
  reads tex_HingeSaturation. cls. unfold hinge_saturation, agtb, tiny. rewrite fin_ofQ, fin_abs, fin_ltb.
  replace (Rltb (IZR 1 / IZR 1000000000000000) (Rabs (env "m_2"))) with true by (symmetry; apply Rltb_true; exact L).
  rewrite (fin_sub (env "x_h") (env "x_1")), !fin_div by lra. rewrite !fin_sub, !fin_mul, fin_min, <- fin_eq_iff. split.
  - intros (env' & EX & AG & SY). unfold HingeSaturation in AG. cbn [c_args] in AG. revert SY. plain.
    intros ((E & _) & (E1 & E2) & ((_ & E3) & _) & ((_ & E4) & _) & _). params. rewrite <- E, E1, E2, E3, E4. congruence.
  - intros E. choose [("m_1", env "y_h" / (env "x_h" - env "x_1")); ("x_2", env "x_h" - env "y_h" / env "m_2");
      ("y_1", env "y_h" / (env "x_h" - env "x_1") * (env "x" - env "x_1")); ("y_2", env "m_2" * (env "x" - (env "x_h" - env "y_h" / env "m_2")))] env.
    repeat split; first [exact E|assumption|lra].
Qed.
Print Assumptions C101_text_of_hinge_saturation.
(** Saturation: its formula defines the slopes by their lines meeting at (x_s, s) under the angle theta. It gives what is fitted;
    and all that is fitted, for angles between 0 and a right angle and a second line that is neither flat nor upright. *)
Theorem C101_text_of_saturation :
  forall gx gs env y, env "s" <> 0 ->
  (gives tex_Saturation (Saturation gx gs) env y -> fitted (Saturation gx gs) env = Fin y) /\
  (let m1 := env "s" / (env "x_s" - env "x_1") in let turned := atan m1 - env "theta" in
   env "x_s" <> env "x_1" -> 0 < Rabs (env "theta") < PI / 2 -> sin turned <> 0 -> cos turned <> 0 ->
   fitted (Saturation gx gs) env = Fin y -> gives tex_Saturation (Saturation gx gs) env y).
Proof.
  intros gx gs env y NS. cls. split; reads tex_Saturation.
  - intros (env' & EX & AG & SY). unfold Saturation in AG. cbn [c_args] in AG. revert SY. plain.
    rewrite inr1. intros ((E & _) & (E1 & E2) & ((ND & _) & _) & (E3 & E4) & ((NT & E5) & _) & _). params.
    rewrite <- E, E1, E2. rewrite <- EX in *. rewrite <- H, <- H0, <- H1, <- H2 in *. clear E E1 E2 EX H H0 H1 H2.
    set (x := env' "x") in *. set (m1 := env' "m_1") in *. set (m2 := env' "m_2") in *. set (x1 := env' "x_1") in *. set (x2 := env' "x_2") in *.
    set (xs := env' "x_s") in *. set (s := env' "s") in *. set (th := env' "theta") in *. clearbody x m1 m2 x1 x2 xs s th. clear env env' y.
    assert (N1 : xs - x1 <> 0) by (intros Z; rewrite Z in E3; lra). assert (N2 : m2 <> 0) by (intros Z; rewrite Z in E4; lra).
    assert (M1 : s / (xs - x1) = m1) by (rewrite E3; field; exact N1). assert (X2 : xs - s / m2 = x2) by (rewrite E4; field; exact N2).
    assert (TH : th = turn m1 m2) by (unfold turn; destruct (Req_EM_T (1 + m1 * m2) 0) as [Z|_]; [contradiction|exact E5]).
    unfold saturation. cbv zeta. rewrite fin_sub, (fin_div s), M1 by exact N1. rewrite fin_atan, (fin_sub (atan m1)), fin_tan, TH, tan_turn by lra.
    rewrite fin_div, (fin_sub xs), X2 by exact N2. rewrite !fin_sub, !fin_mul, fin_min. reflexivity.
  - intros NX TH NS' NC E. set (m1 := env "s" / (env "x_s" - env "x_1")) in *. set (turned := atan m1 - env "theta") in *. set (m2 := tan turned).
    assert (N1 : env "x_s" - env "x_1" <> 0) by lra.
    assert (N2 : m2 <> 0) by (unfold m2, tan, Rdiv; apply Rmult_integral_contrapositive_currified; [exact NS'|apply Rinv_neq_0_compat, NC]).
    unfold saturation in E. cbv zeta in E. rewrite fin_sub, (fin_div (env "s")) in E by exact N1. fold m1 in E.
    rewrite fin_atan, (fin_sub (atan m1)), fin_tan in E. fold turned in E. fold m2 in E.
    rewrite fin_div, !fin_sub, !fin_mul, fin_min in E by exact N2. apply Fin_inj in E.
    assert (A : Rabs (env "theta") = env "theta" \/ Rabs (env "theta") = - env "theta") by (unfold Rabs; destruct (Rcase_abs _); [right|left]; reflexivity).
    assert (B : - (PI / 2) < env "theta" < PI / 2) by (destruct A as [A|A]; lra).
    assert (NT : env "theta" <> 0) by (intros Z; rewrite Z, Rabs_R0 in TH; lra).
    assert (CT : cos (env "theta") <> 0) by (apply Rgt_not_eq, cos_gt_0; lra).
    assert (ST : sin (env "theta") <> 0).
    { destruct (Rlt_or_le 0 (env "theta")); [apply Rgt_not_eq, sin_gt_0; lra|apply Rlt_not_eq, sin_lt_0_var; lra]. }
    assert (S1 : sin (atan m1) = m1 * cos (atan m1)) by (rewrite <- (tan_atan m1) at 2; unfold tan; field; apply cos_atan_nz).
    assert (S2 : sin turned = m2 * cos turned) by (unfold m2, tan; field; exact NC).
    assert (ET : env "theta" = atan m1 - turned) by (unfold turned; ring).
    pose proof (cos_atan_nz m1) as C1.
    assert (D1 : cos (env "theta") = cos (atan m1) * cos turned * (1 + m1 * m2)) by (rewrite ET, cos_minus, S1, S2; ring).
    assert (D2 : sin (env "theta") = cos (atan m1) * cos turned * (m1 - m2)) by (rewrite ET, sin_minus, S1, S2; ring).
    assert (P1 : 1 + m1 * m2 <> 0) by (intros Z; rewrite Z, Rmult_0_r in D1; contradiction).
    assert (P2 : m2 - m1 <> 0) by (intros Z; replace (m1 - m2) with (- (m2 - m1)) in D2 by ring; rewrite Z, Ropp_0, Rmult_0_r in D2; contradiction).
    assert (AT : env "theta" = atan ((m1 - m2) / (1 + m1 * m2))).
    { replace ((m1 - m2) / (1 + m1 * m2)) with (tan (env "theta")) by (unfold tan; rewrite D1, D2; field; repeat split; assumption). symmetry. apply atan_tan. lra. }
    assert (M1 : env "s" = m1 * (env "x_s" - env "x_1")) by (unfold m1; field; exact N1).
    choose [("m_1", m1); ("m_2", m2); ("x_2", env "x_s" - env "s" / m2); ("y_1", m1 * (env "x" - env "x_1")); ("y_2", m2 * (env "x" - (env "x_s" - env "s" / m2)))] env.
    rewrite inr1. assert (XS : env "x_s" = (m2 * (env "x_s" - env "s" / m2) - m1 * env "x_1") / (m2 - m1)) by (rewrite M1 at 1; field; split; assumption).
    assert (M2 : env "s" = m2 * (env "x_s" - (env "x_s" - env "s" / m2))) by (field; exact N2).
    repeat (first [split|exact I]); first [exact E|exact M1|exact M2|exact XS|exact AT|assumption|reflexivity].
Qed.
Print Assumptions C101_text_of_saturation.

(* ---------------------------------------------------------------- the formulas that are wrong *)
(** GaussianLn: the text lacks the minus sign: away from exp(m) it never gives the value that is fitted. *)
Theorem C101_text_of_gaussian_ln_refuted :
  forall env y, 0 < env "x" -> env "s" <> 0 -> env "A" <> 0 -> env "x" <> exp (env "m") ->
  fitted GaussianLn env = Fin y -> ~ says tex_GaussianLn env y.
Proof.
  intros env y P NZ NA NM F. one. means. destruct (Rlt_dec 0 (env "x")) as [_|X]; [|contradiction]. cbn [opt2].
  destruct (Req_EM_T (2 * env "s" ^ 2) 0) as [Z|_].
  { exfalso. assert (0 < env "s" ^ 2) by (replace (env "s" ^ 2) with (Rsqr (env "s")) by (unfold Rsqr; ring); apply Rsqr_pos_lt, NZ). lra. }
  intros H. revert F. cls. pose proof (C101_gaussian_ln_formula_refuted (env "x") (env "m") (env "s") (env "A") P NZ NA NM) as K. intros F. apply K. rewrite F. f_equal.
  cbn [opt2] in H. apply some_inj in H. rewrite <- H. reflexivity.
Qed.
Print Assumptions C101_text_of_gaussian_ln_refuted.
(** Moyal: the text never gives the value that is fitted. *)
Theorem C101_text_of_moyal_refuted :
  forall env y, env "sigma" <> 0 -> env "A" <> 0 -> fitted Moyal env = Fin y -> ~ says tex_Moyal env y.
Proof.
  intros env y NZ NA F. one. means. repeat nz. intros H. revert F. cls. intros F. apply (C101_moyal_formula_refuted (env "x") (env "mu") (env "sigma") (env "A") NZ NA).
  rewrite F. f_equal. apply some_inj in H. rewrite <- H. unfold tex_moyal. do 3 f_equal. lra.
Qed.
Print Assumptions C101_text_of_moyal_refuted.
(** The conditions are met: values of all parameters, with the functions and the texts agreeing on a value other than 0. *)
Example C101_text_ex :
  let env := fun v => if mem_str v ["x"] then 3 else if mem_str v ["x_0"; "mu"; "x_1"] then 1 else 2 in
  env "sigma" <> 0 /\ 0 < env "x" /\ env "x_0" < env "x" /\ says tex_Line env 8 /\ fitted Line env = Fin 8.
Proof.
  cbv zeta. assert (F : fitted Line (fun v => if mem_str v ["x"] then 3 else if mem_str v ["x_0"; "mu"; "x_1"] then 1 else 2) = Fin 8).
  { cls. unfold line. rewrite fin_mul, fin_add. cbn. f_equal. ring. }
  cbn [mem_str existsb String.eqb Ascii.eqb Bool.eqb orb]. repeat split; try lra; [apply C101_text_of_line|]; exact F.
Qed.
