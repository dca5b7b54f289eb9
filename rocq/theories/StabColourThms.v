(** C238 (the colours of the stability map). *)
From Coq Require Import Reals Lra Lia List String Bool ZArith.
From Verif Require Import Py Num Instability InstabilityThms StabColour.
Import ListNotations.
Open Scope string_scope.

Lemma limits : norm_limits = (- / 2, 4 + / 2)%R.
Proof. unfold norm_limits. cbn. f_equal; lra. Qed.
Lemma colours5 : n_colours = 5%Z. Proof. reflexivity. Qed.

(** Every value drawn gets the colour of the condition whose code it is nearest to: half a unit below each code its colour begins, half a
    unit above it ends. *)
Theorem C238_bands : forall (x : R) (b : Z), (0 <= b <= 4)%Z -> (IZR b - / 2 <= x < IZR b + / 2)%R -> colour_of x = Some b.
Proof.
  intros x b B [L U]. unfold colour_of. rewrite limits, colours5. assert (H0 : (0 <= IZR b)%R) by (apply IZR_le; lia). assert (H4 : (IZR b <= 4)%R) by (apply IZR_le; lia).
  destruct (Rlt_dec ((x - - / 2) / (4 + / 2 - - / 2)) 0) as [N|_]; [exfalso; assert ((x - - / 2) / (4 + / 2 - - / 2) = (x + / 2) / 5)%R as E by field; rewrite E in N; lra|].
  destruct (Rlt_dec 1 ((x - - / 2) / (4 + / 2 - - / 2))) as [N|_]; [exfalso; assert ((x - - / 2) / (4 + / 2 - - / 2) = (x + / 2) / 5)%R as E by field; rewrite E in N; lra|].
  destruct (Req_EM_T ((x - - / 2) / (4 + / 2 - - / 2)) 1) as [N|_]; [exfalso; assert ((x - - / 2) / (4 + / 2 - - / 2) = (x + / 2) / 5)%R as E by field; rewrite E in N; lra|].
  f_equal. replace ((x - - / 2) / (4 + / 2 - - / 2) * 5)%R with (x + / 2)%R by field. unfold Int_part. rewrite <- (tech_up (x + / 2) (b + 1)); [ring|rewrite plus_IZR; lra|rewrite plus_IZR; lra].
Qed.
(** Outside the five bands (but for the upper end of the last) there is no colour. *)
Theorem C238_no_colour_outside : forall x : R, (x < - / 2 \/ 4 + / 2 < x)%R <-> colour_of x = None.
Proof.
  intro x. unfold colour_of. rewrite limits. assert (E : ((x - - / 2) / (4 + / 2 - - / 2) = (x + / 2) / 5)%R) by field. rewrite E.
  destruct (Rlt_dec ((x + / 2) / 5) 0) as [N|N]; [split; intro H; [reflexivity|left; lra]|]. destruct (Rlt_dec 1 ((x + / 2) / 5)) as [M|M]; [split; intro H; [reflexivity|right; lra]|].
  split; [intros [H|H]; exfalso; lra|]. destruct (Req_EM_T ((x + / 2) / 5) 1); discriminate.
Qed.
(** The upper end of the last band still belongs to it, and the lower end of the first to that. *)
Theorem C238_ends : colour_of (4 + / 2) = Some 4%Z /\ colour_of (- / 2) = Some 0%Z.
Proof.
  split; [|apply C238_bands; [lia|lra]]. unfold colour_of. rewrite limits, colours5. assert (E : ((4 + / 2 - - / 2) / (4 + / 2 - - / 2) = 1)%R) by field. rewrite E.
  destruct (Rlt_dec 1 0) as [N|_]; [exfalso; lra|]. destruct (Rlt_dec 1 1) as [N|_]; [exfalso; lra|]. destruct (Req_EM_T 1 1) as [_|N]; [reflexivity|exfalso; lra].
Qed.
(** The ticks of the colour bar are the five codes in order, each in the middle of its own colour and with the name of its condition. *)
Theorem C238_ticks : ticks = [0; 1; 2; 3; 4]%Z /\ (forall b, In b ticks -> colour_of (IZR b) = Some b) /\
  (forall b name, tick_text b = Ok name <-> In (b, name) stability_map) /\ (forall b, ~ In b ticks -> tick_text b = Err KeyError).
Proof.
  split; [reflexivity|]. split; [|split].
  - intros b Hb. apply C238_bands; [cbn in Hb; lia|lra].
  - intros b name. unfold tick_text. cbn [find stability_map fst snd]. destruct (4 =? b)%Z eqn:E4; [apply Z.eqb_eq in E4; subst b|]; [|destruct (3 =? b)%Z eqn:E3; [apply Z.eqb_eq in E3; subst b|]; [|destruct (2 =? b)%Z eqn:E2; [apply Z.eqb_eq in E2; subst b|];
      [|destruct (1 =? b)%Z eqn:E1; [apply Z.eqb_eq in E1; subst b|]; [|destruct (0 =? b)%Z eqn:E0; [apply Z.eqb_eq in E0; subst b|]]]]].
    1-5: split; [intro H; injection H as <-; cbn; tauto|intros [H|[H|[H|[H|[H|[]]]]]]; first [discriminate H|injection H as <-; reflexivity]].
    apply Z.eqb_neq in E4, E3, E2, E1, E0. split; [discriminate|]. intros [H|[H|[H|[H|[H|[]]]]]]; congruence.
  - intros b Hb. unfold tick_text. cbn [find stability_map fst snd]. change ticks with [0; 1; 2; 3; 4]%Z in Hb. destruct (4 =? b)%Z eqn:E4; [apply Z.eqb_eq in E4; subst; cbn in Hb; tauto|]. destruct (3 =? b)%Z eqn:E3; [apply Z.eqb_eq in E3; subst; cbn in Hb; tauto|].
    destruct (2 =? b)%Z eqn:E2; [apply Z.eqb_eq in E2; subst; cbn in Hb; tauto|]. destruct (1 =? b)%Z eqn:E1; [apply Z.eqb_eq in E1; subst; cbn in Hb; tauto|]. destruct (0 =? b)%Z eqn:E0; [apply Z.eqb_eq in E0; subst; cbn in Hb; tauto|]. reflexivity.
Qed.
(** The inverse map undoes the map in both directions. *)
Theorem C238_inverse : forall b name, In (b, name) stability_map <-> In (name, b) stability_map_inverse.
Proof.
  intros b name. unfold stability_map_inverse. rewrite in_map_iff. split.
  - intro H. exists (b, name). auto.
  - intros [[b' n'] [E H]]. cbn in E. injection E as -> ->. exact H.
Qed.
Theorem C238_inverse_unique : NoDup (map fst stability_map_inverse) /\ NoDup (map snd stability_map_inverse).
Proof.
  unfold stability_map_inverse. cbn [map stability_map fst snd]. split; repeat (constructor; [cbn; intro H; repeat (destruct H as [H|H]; [discriminate H|]); exact H|]); constructor.
Qed.
(** Every row with numbers in it is drawn in a colour whose tick has the name of a condition. *)
Theorem C238_every_row_has_a_colour : forall g (rows : list (R * R)), In g growth_rates ->
  exists bins, stability true g (map (fun br => (Fin (fst br), Fin (snd br))) rows) = Ok bins /\ List.length bins = List.length rows /\
  Forall (fun b => colour_of (IZR b) = Some b /\ exists name, tick_text b = Ok name /\ In (name, b) stability_map_inverse) bins.
Proof.
  intros g rows Hg. destruct (C43_classification_total_exclusive_partial g rows Hg) as [bins [E [F M]]]. exists bins. split; [exact E|].
  split; [clear - F; induction F as [|a c la lc Hac F IH]; [reflexivity|cbn; rewrite IH; reflexivity]|]. apply Forall_impl with (2 := M). intros b Hb. apply in_map_iff in Hb. destruct Hb as [[b' name] [Eb Hb]]. cbn in Eb. subst b'.
  split; [apply C238_ticks|exists name; split; [apply C238_ticks, Hb|apply C238_inverse, Hb]]. change ticks with [0; 1; 2; 3; 4]%Z. destruct Hb as [H|[H|[H|[H|[H|[]]]]]]; injection H as <- _; cbn; tauto.
Qed.
Example colour238 : colour_of 3 = Some 3%Z /\ tick_text 3 = Ok "Between AIC & MM".
Proof. split; [apply (C238_bands 3 3); [lia|lra]|reflexivity]. Qed.
