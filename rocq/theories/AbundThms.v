(** C45 (abundance look-up), C46 (abundance ratios), C95 (comments). *)
From Coq Require Import List String Bool Arith ZArith Reals Lra Lia.
From Verif Require Import Py PyStr Num Abund AbundData.
Import ListNotations.
Open Scope string_scope.
Open Scope R_scope.

(* ---------------------------------------------------------------- specification *)
(** A table a look-up by symbol or by atomic number is unambiguous in. *)
Definition keyed (t : list entry) : Prop := NoDup (map e_z t) /\ NoDup (map e_symbol t).
Definition names (key : pyval) (e : entry) : Prop :=
  match key with PStr s => e_symbol e = s | PInt z => e_z e = z | POther => False end.
Definition thousandths (o : option Z) : XR := match o with Some z => Fin (IZR z / 1000) | None => NaN end.
(** The library with its shipped tables. *)
Definition library (year : pyval) : result reference := make_reference asplund2009 asplund2021 year.
Definition photosphere (r : reference) (key : pyval) : result (XR * XR) := get_element r key "Photosphere".

(* ---------------------------------------------------------------- lemmas *)
Lemma matches_names key e : matches key e = true <-> names key e.
Proof.
  destruct key as [z|s|]; cbn; [apply Z.eqb_eq|apply String.eqb_eq|]. split; [discriminate|contradiction].
Qed.
Lemma filter_one (key : pyval) t e : keyed t -> In e t -> names key e -> filter (matches key) t = [e].
Proof.
  intros [NZ NS] Hin Hn. induction t as [|x t IH]; [contradiction|].
  cbn [map] in NZ, NS. apply NoDup_cons_iff in NZ, NS. destruct NZ as [Z1 Z2], NS as [S1 S2]. cbn [filter].
  assert (EX : forall y, names key y -> names key e -> e_z y = e_z e \/ e_symbol y = e_symbol e).
  { intros y. destruct key; cbn; intros A B; [left|right|contradiction]; congruence. }
  destruct Hin as [->|Hin].
  - destruct (matches key e) eqn:M; [|apply matches_names in Hn; congruence].
    f_equal. clear IH. induction t as [|y t IH']; [reflexivity|]. cbn [filter].
    destruct (matches key y) eqn:My.
    + exfalso. apply matches_names in My. destruct (EX _ My Hn) as [Q|Q]; [apply Z1|apply S1]; left; assumption.
    + apply IH'; [intros Q; apply Z1; right; exact Q|apply NoDup_cons_iff in Z2; apply Z2
                 |intros Q; apply S1; right; exact Q|apply NoDup_cons_iff in S2; apply S2].
  - destruct (matches key x) eqn:Mx.
    + exfalso. apply matches_names in Mx. destruct (EX _ Mx Hn) as [Q|Q]; [apply Z1|apply S1]; rewrite Q; apply in_map; exact Hin.
    + apply IH; assumption.
Qed.
Lemma filter_none (key : pyval) t : (forall e, In e t -> ~ names key e) -> filter (matches key) t = [].
Proof.
  induction t as [|x t IH]; intros H; [reflexivity|]. cbn [filter].
  destruct (matches key x) eqn:M; [exfalso; apply matches_names in M; apply (H x); [left; reflexivity|exact M]|].
  apply IH. intros e He. apply H. right. exact He.
Qed.
Lemma num_thousandths o : (num o : XR) = thousandths o.
Proof. destruct o; [apply fin_ofQ|reflexivity]. Qed.

(* decide NoDup on concrete lists *)
Fixpoint nodupb {A} (eqb : A -> A -> bool) (l : list A) : bool :=
  match l with [] => true | x :: r => negb (existsb (eqb x) r) && nodupb eqb r end.
Lemma nodupb_ok {A} (eqb : A -> A -> bool) (E : forall x y, eqb x y = true <-> x = y) l : nodupb eqb l = true -> NoDup l.
Proof.
  induction l as [|x l IH]; cbn; intros H; constructor; apply andb_prop in H; destruct H as [H1 H2]; [|apply IH, H2].
  intros Hin. rewrite (proj2 (existsb_exists (eqb x) l)) in H1; [discriminate|]. exists x. split; [exact Hin|apply E; reflexivity].
Qed.

(* ================================================================ C45 *)
Theorem C45_years : forall year,
  match year with
  | PInt z => (z = 2009%Z \/ z = 2021%Z -> exists r, library year = Ok r /\ r_year r = z) /\
              (z <> 2009%Z -> z <> 2021%Z -> library year = Err ValueError)
  | _ => library year = Err TypeError
  end.
Proof.
  intros [z|s|]; try reflexivity. unfold library, make_reference. split.
  - intros [-> | ->]; eexists; split; reflexivity.
  - intros H1 H2. rewrite (proj2 (Z.eqb_neq _ _) H1), (proj2 (Z.eqb_neq _ _) H2). reflexivity.
Qed.
Print Assumptions C45_years.
(** The shipped tables are keyed and hold the definition H = 12. *)
Theorem C45_shipped_tables : forall year r, library year = Ok r ->
  keyed (r_table r) /\ List.length (r_table r) = 83%nat /\
  exists h, In h (r_table r) /\ e_z h = 1%Z /\ e_symbol h = "H" /\ e_ph_ab h = Some 12000%Z.
Proof.
  intros [z|s|] r H; try discriminate. unfold library, make_reference in H.
  destruct (z =? 2009)%Z; [injection H as <-|destruct (z =? 2021)%Z; [injection H as <-|discriminate]]; cbn [r_table].
  - split; [split; [apply (nodupb_ok Z.eqb Z.eqb_eq)|apply (nodupb_ok String.eqb String.eqb_eq)]; vm_compute; reflexivity|].
    split; [reflexivity|]. eexists. split; [left; reflexivity|]. repeat split.
  - split; [split; [apply (nodupb_ok Z.eqb Z.eqb_eq)|apply (nodupb_ok String.eqb String.eqb_eq)]; vm_compute; reflexivity|].
    split; [reflexivity|]. eexists. split; [left; reflexivity|]. repeat split.
Qed.
Print Assumptions C45_shipped_tables.
(** In a keyed table a look-up returns the row's numbers, by symbol and by atomic number alike, under both
    names of the meteoritic column; an element that is not there is a KeyError, as is an unknown column, and
    a key that is neither is a ValueError. *)
Theorem C45_lookup : forall r kind, keyed (r_table r) ->
  (forall e key, In e (r_table r) -> names key e ->
     (kind = "Photosphere" -> get_element r key kind = Ok (thousandths (e_ph_ab e), thousandths (e_ph_un e))) /\
     (kind = "CI_chondrites" \/ kind = "Meteorites" -> get_element r key kind = Ok (thousandths (e_ci_ab e), thousandths (e_ci_un e)))) /\
  (forall key, In kind ["Photosphere"; "CI_chondrites"; "Meteorites"] -> key <> POther ->
     (forall e, In e (r_table r) -> ~ names key e) -> get_element (T := XR) r key kind = Err KeyError) /\
  (forall key, ~ In kind ["Photosphere"; "CI_chondrites"; "Meteorites"] -> get_element (T := XR) r key kind = Err KeyError) /\
  (In kind ["Photosphere"; "CI_chondrites"; "Meteorites"] -> get_element (T := XR) r POther kind = Err ValueError).
Proof.
  intros r kind K.
  assert (VK : In kind ["Photosphere"; "CI_chondrites"; "Meteorites"] ->
     negb (String.eqb (resolve_kind kind) "Photosphere" || String.eqb (resolve_kind kind) "CI_chondrites") = false).
  { intros [<-|[<-|[<-|[]]]]; reflexivity. }
  split; [|split; [|split]].
  - intros e key He Hn. pose proof (filter_one key _ e K He Hn) as F.
    split; [intros -> | intros [-> | ->]]; unfold get_element; cbn [resolve_kind String.eqb Ascii.eqb Bool.eqb negb orb];
      (destruct key; [| |contradiction]; rewrite F); unfold measured; cbn [String.eqb Ascii.eqb Bool.eqb]; rewrite !num_thousandths; reflexivity.
  - intros key Hk NO Hn. unfold get_element. rewrite (VK Hk). pose proof (filter_none key _ Hn) as F.
    destruct key; [rewrite F; reflexivity|rewrite F; reflexivity|contradiction].
  - intros key Hk. unfold get_element, resolve_kind.
    destruct (String.eqb kind "Meteorites") eqn:E1; [apply String.eqb_eq in E1; subst; exfalso; apply Hk; cbn; auto|].
    destruct (String.eqb kind "Photosphere") eqn:E2; [apply String.eqb_eq in E2; subst; exfalso; apply Hk; cbn; auto|].
    destruct (String.eqb kind "CI_chondrites") eqn:E3; [apply String.eqb_eq in E3; subst; exfalso; apply Hk; cbn; auto|].
    reflexivity.
  - intros Hk. unfold get_element. rewrite (VK Hk). reflexivity.
Qed.
Print Assumptions C45_lookup.
Example C45_ex : exists r, library (PInt 2021) = Ok r /\ get_element r (PStr "Fe") "Photosphere" = Ok (Fin (7460 / 1000), Fin (40 / 1000)).
Proof.
  eexists. split; [reflexivity|]. unfold get_element. cbn [resolve_kind String.eqb Ascii.eqb Bool.eqb negb orb r_table].
  assert (F : filter (matches (PStr "Fe")) asplund2021 = [mkEntry 26 "Fe" (Some 7460%Z) (Some 20%Z) (Some 7460%Z) (Some 40%Z) None]) by (vm_compute; reflexivity).
  rewrite F. unfold measured. cbn [String.eqb Ascii.eqb Bool.eqb e_ph_ab e_ph_un num]. rewrite !fin_ofQ. reflexivity.
Qed.

(* ================================================================ C46 *)
Lemma pow_ten x : tpow (T := XR) ten (Fin x) = Fin (Rpower 10 x).
Proof.
  unfold ten. rewrite fin_ofZ. change (tpow (Fin 10) (Fin x)) with (xpow (Fin 10) (Fin x)). unfold xpow.
  assert (E : Rltb 0 10 = true) by (apply Rltb_true; lra). rewrite E. reflexivity.
Qed.
Lemma ln_ten : tln (T := XR) ten = Fin (ln 10).
Proof.
  unfold ten. rewrite fin_ofZ. change (tln (Fin 10)) with (xln (Fin 10)). unfold xln.
  assert (E : Rltb 0 10 = true) by (apply Rltb_true; lra). rewrite E. reflexivity.
Qed.
Lemma ln10_pos : 0 < ln 10. Proof. rewrite <- ln_1. apply ln_increasing; lra. Qed.
(** The dex abundance of an element, hydrogen being 12 by definition. *)
Definition dex (r : reference) (key : pyval) (x : R) : Prop := exists u, photosphere r key = Ok (Fin x, u).
Definition hydrogen_is_12 (r : reference) : Prop := dex r (PStr "H") 12.
Lemma ratio_value r a b x y : hydrogen_is_12 r -> dex r a x -> dex r b y ->
  exists u, abundance_ratio r a b = Ok (Fin (Rpower 10 (x - y)), u).
Proof.
  intros HH [ua Ha] [ub Hb]. unfold abundance_ratio. unfold photosphere in *. rewrite Ha.
  destruct (match b with PStr "H" => true | _ => false end) eqn:Q.
  - assert (b = PStr "H").
    { destruct b as [|s|]; try discriminate. destruct s as [|c s]; [discriminate|].
      destruct s as [|c' s]; destruct c as [[] [] [] [] [] [] [] []]; try discriminate. reflexivity. }
    subst b. destruct HH as [uh HH]. unfold photosphere in HH. rewrite Hb in HH. injection HH as Hy _.
    unfold convert_from_dex. rewrite fin_ofZ, fin_sub, pow_ten. subst y. eexists. reflexivity.
  - rewrite Hb, fin_sub, pow_ten. eexists. reflexivity.
Qed.
(** Ratios multiply consistently: 1 for an element with itself, the inverse when exchanged, and the product along a chain;
    and they are positive. For every table in which hydrogen is 12. *)
Theorem C46_ratios_consistent :
  forall r a b c x y z, hydrogen_is_12 r -> dex r a x -> dex r b y -> dex r c z ->
  exists rab rba rbc rac uab uba ubc uac,
    abundance_ratio r a b = Ok (Fin rab, uab) /\ abundance_ratio r b a = Ok (Fin rba, uba) /\
    abundance_ratio r b c = Ok (Fin rbc, ubc) /\ abundance_ratio r a c = Ok (Fin rac, uac) /\
    0 < rab /\ rab * rba = 1 /\ rab * rbc = rac /\ (x = y -> rab = 1).
Proof.
  intros r a b c x y z HH Ha Hb Hc.
  destruct (ratio_value r a b x y HH Ha Hb) as [u1 E1]. destruct (ratio_value r b a y x HH Hb Ha) as [u2 E2].
  destruct (ratio_value r b c y z HH Hb Hc) as [u3 E3]. destruct (ratio_value r a c x z HH Ha Hc) as [u4 E4].
  do 8 eexists. split; [exact E1|]. split; [exact E2|]. split; [exact E3|]. split; [exact E4|].
  split; [apply exp_pos|]. rewrite <- !Rpower_plus.
  split; [replace (x - y + (y - x)) with 0 by ring; apply Rpower_O; lra|].
  split; [f_equal; ring|]. intros ->. replace (y - y) with 0 by ring. apply Rpower_O. lra.
Qed.
Print Assumptions C46_ratios_consistent.
(** The shipped tables satisfy the hypothesis. *)
Theorem C46_shipped_hydrogen : forall year r, library year = Ok r -> hydrogen_is_12 r.
Proof.
  intros year r H. destruct (C45_shipped_tables _ _ H) as (K & _ & h & Hin & _ & HS & HA).
  unfold hydrogen_is_12, dex, photosphere. exists (thousandths (e_ph_un h)).
  destruct (C45_lookup r "Photosphere" K) as (L & _).
  destruct (L h (PStr "H") Hin HS) as [L1 _]. rewrite (L1 eq_refl), HA. cbn [thousandths]. repeat f_equal. field.
Qed.
Print Assumptions C46_shipped_hydrogen.
(** Uncertainties: never negative for a table with non-negative ones, and for a denominator other than "H" a missing
    one counts as 0. *)
Definition unc_ok (u : XR) : Prop := match u with Fin a => 0 <= a | NaN => True | _ => False end.
Definition unc0 (u : XR) : R := match u with Fin a => a | _ => 0 end.
Theorem C46_uncertainty_partial :
  forall r a b x y ua ub, photosphere r a = Ok (Fin x, ua) -> photosphere r b = Ok (Fin y, ub) -> unc_ok ua -> unc_ok ub ->
  (b <> PStr "H" -> exists u, abundance_ratio r a b = Ok (Fin (Rpower 10 (x - y)), Fin u) /\
     u = Rpower 10 (x - y) * ln 10 * sqrt (unc0 ua ^ 2 + unc0 ub ^ 2) /\ 0 <= u) /\
  (b = PStr "H" -> ua <> NaN -> exists q u, abundance_ratio r a b = Ok (Fin q, Fin u) /\ 0 < q /\ u = q * ln 10 * unc0 ua /\ 0 <= u).
Proof.
  intros r a b x y ua ub Ha Hb Oa Ob. unfold photosphere in *. unfold abundance_ratio. rewrite Ha. split.
  - intros NH.
    assert (Q : match b with PStr "H" => true | _ => false end = false).
    { destruct (match b with PStr "H" => true | _ => false end) eqn:Q; [|reflexivity]. exfalso. apply NH.
      destruct b as [|s|]; try discriminate. destruct s as [|c s]; [discriminate|].
      destruct s as [|c' s]; destruct c as [[] [] [] [] [] [] [] []]; try discriminate. reflexivity. }
    rewrite Q, Hb, fin_sub, pow_ten, ln_ten.
    assert (NZ : forall w, unc_ok w -> nan_to_zero w = Fin (unc0 w)).
    { intros [w| | |] W; try contradiction; unfold nan_to_zero; [rewrite fin_isnan; reflexivity|].
      change (aisnan NaN) with true. cbv iota. rewrite fin_ofZ. reflexivity. }
    rewrite (NZ _ Oa), (NZ _ Ob), !fin_sq, fin_add.
    assert (P : 0 <= unc0 ua * unc0 ua + unc0 ub * unc0 ub).
    { pose proof (Rle_0_sqr (unc0 ua)). pose proof (Rle_0_sqr (unc0 ub)). unfold Rsqr in *. lra. }
    rewrite fin_sqrt by exact P. rewrite !fin_mul. eexists. split; [reflexivity|].
    split; [f_equal; f_equal; ring|]. apply Rmult_le_pos; [apply Rmult_le_pos; left; [apply exp_pos|apply ln10_pos]|apply sqrt_pos].
  - intros -> NN. destruct ua as [u| | |]; try contradiction. unfold convert_from_dex.
    rewrite fin_ofZ, fin_sub, pow_ten, ln_ten, !fin_mul. eexists. eexists. split; [reflexivity|]. split; [apply exp_pos|].
    split; [reflexivity|]. apply Rmult_le_pos; [apply Rmult_le_pos; left; [apply exp_pos|apply ln10_pos]|exact Oa].
Qed.
Print Assumptions C46_uncertainty_partial.
(** But relative to "H" a missing uncertainty makes the result missing, while the same ratio asked for by atomic number gives 0:
    already for hydrogen itself in the shipped 2009 table. *)
Theorem C46_missing_uncertainty_refuted :
  exists r q, library (PInt 2009) = Ok r /\
    abundance_ratio r (PStr "H") (PStr "H") = Ok (Fin q, NaN) /\ abundance_ratio r (PStr "H") (PInt 1) = Ok (Fin q, Fin 0).
Proof.
  eexists. exists 1. split; [reflexivity|].
  assert (E : forall key, key = PStr "H" \/ key = PInt 1 -> get_element (T := XR) {| r_year := 2009; r_table := asplund2009; r_has_comments := false |} key "Photosphere" = Ok (Fin 12, NaN)).
  { intros key [-> | ->]; unfold get_element; cbn [resolve_kind String.eqb Ascii.eqb Bool.eqb negb orb r_table].
    - assert (F : filter (matches (PStr "H")) asplund2009 = [mkEntry 1 "H" (Some 8220%Z) (Some 40%Z) (Some 12000%Z) None None]) by (vm_compute; reflexivity).
      rewrite F. unfold measured. cbn [String.eqb Ascii.eqb Bool.eqb e_ph_ab e_ph_un num]. rewrite fin_ofQ. repeat f_equal. field.
    - assert (F : filter (matches (PInt 1)) asplund2009 = [mkEntry 1 "H" (Some 8220%Z) (Some 40%Z) (Some 12000%Z) None None]) by (vm_compute; reflexivity).
      rewrite F. unfold measured. cbn [String.eqb Ascii.eqb Bool.eqb e_ph_ab e_ph_un num]. rewrite fin_ofQ. repeat f_equal. field. }
  assert (P1 : Rpower 10 (12 - 12) = 1) by (replace (12 - 12) with 0 by ring; apply Rpower_O; lra).
  unfold abundance_ratio. rewrite !E by auto. cbv beta iota zeta. split.
  - unfold convert_from_dex. rewrite fin_ofZ, fin_sub, pow_ten, nan_mul_r, P1. reflexivity.
  - unfold nan_to_zero. change (aisnan NaN) with true. cbv iota. rewrite fin_ofZ, fin_sq, fin_add, fin_sqrt, fin_sub, pow_ten, ln_ten, !fin_mul by lra.
    rewrite P1. replace (0 * 0 + 0 * 0) with 0 by ring. rewrite sqrt_0. repeat f_equal. ring.
Qed.
Print Assumptions C46_missing_uncertainty_refuted.
Example C46_ex : exists r, library (PInt 2021) = Ok r /\ hydrogen_is_12 r.
Proof. eexists. split; [reflexivity|]. apply (C46_shipped_hydrogen (PInt 2021)). reflexivity. Qed.

(* ================================================================ C95 *)
(** A comment is only ever text from the element's row; unknown elements and the 2009 tables have none. *)
Theorem C95_comments : forall r key c, keyed (r_table r) -> get_comment r key = Ok (Some c) ->
  r_has_comments r = true /\ c <> "" /\ exists e, In e (r_table r) /\ names key e /\ e_comment e = Some c.
Proof.
  intros r key c K H. unfold get_comment in H. destruct (r_has_comments r); [|discriminate]. cbn [negb] in H. split; [reflexivity|].
  assert (H' : match filter (matches key) (r_table r) with [] => Ok None | [e] => Ok (match e_comment e with Some "" => None | c0 => c0 end)
               | _ => Err ValueError end = Ok (Some c)) by (destruct key; [exact H|exact H|discriminate H]).
  destruct (filter (matches key) (r_table r)) as [|e [|e' l]] eqn:F; try discriminate.
  assert (I : In e (r_table r) /\ matches key e = true) by (apply filter_In; rewrite F; left; reflexivity).
  destruct I as [I M]. apply matches_names in M. destruct (e_comment e) as [d|] eqn:C; [|discriminate].
  destruct d as [|ch d]; [discriminate|]. injection H' as <-. split; [discriminate|]. exists e. auto.
Qed.
Theorem C95_comments_never_fail : forall year r, library year = Ok r -> forall key, key <> POther -> exists c, get_comment r key = Ok c.
Proof.
  intros year r H key NO. destruct (C45_shipped_tables _ _ H) as (K & _). unfold get_comment.
  destruct (r_has_comments r); [|eexists; reflexivity]. cbn [negb].
  destruct (filter (matches key) (r_table r)) as [|e l] eqn:F.
  - destruct key; [eexists; reflexivity|eexists; reflexivity|contradiction].
  - assert (I : In e (r_table r) /\ matches key e = true) by (apply filter_In; rewrite F; left; reflexivity).
    destruct I as [I M]. apply matches_names in M. rewrite (filter_one key _ e K I M) in F. injection F as <-.
    destruct key; [eexists; reflexivity|eexists; reflexivity|contradiction].
Qed.
Print Assumptions C95_comments.
Print Assumptions C95_comments_never_fail.
