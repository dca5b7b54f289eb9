(** C216: what the annotation of a fit says about its parameters if it is simplified for a paper. *)
From Coq Require Import Reals List String Ascii Bool Arith ZArith Lia Lra DecimalString.
From Verif Require Import Py PyStr Labels MoreLabels TexInfo TexReport LabelsThms MoreLabelsThms TexInfoThms TexReportThms.
Import ListNotations.
Open Scope list_scope.
Open Scope string_scope.

(* ---------------------------------------------------------------- specification *)
(** the number with the digits of [s] and another exponent *)
Definition with_exponent (s : sci) (e : Z) : sci := mkSci (sc_neg s) (sc_int s) (sc_frac s) e.
(** what a simplified line says after "name = " *)
Definition paper_text (n : num) : string :=
  match n with Dec s => rstrip "." (rstrip "0" (repr_sci s)) | _ => show_num n end.
(** a formula's line whose right-hand side is not a number *)
Definition no_number (l : string) : Prop :=
  forall a b k, split_on "="%char (replace " " "" l) = a :: b :: k -> b <> "nan" /\ b <> "inf" /\ b <> "-inf" /\ exists c, has_char c b = true /\ has_char c "0123456789.e+-" = false.

(* ---------------------------------------------------------------- reading back *)
Lemma split_app c a b : has_char c a = false -> split_on c (a ++ String c b) = a :: split_on c b.
Proof.
  induction a as [|d a IH]; intros H; [cbn; rewrite ascii_eqb_refl; reflexivity|]. cbn [has_char] in H. apply orb_false_elim in H. destruct H as [H1 H2].
  change (String d a ++ String c b)%string with (String d (a ++ String c b)%string). cbn [split_on]. rewrite IH by exact H2.
  rewrite H1. reflexivity.
Qed.
Lemma read_show l : digits l -> read_digits (show_digits l) = Some l.
Proof.
  induction l as [|d l IH]; intros H; [reflexivity|]. cbn [show_digits read_digits]. rewrite IH by (intros x X; apply H; right; exact X).
  assert (D : (d < 10)%nat) by (apply H; left; reflexivity). do 10 (destruct d as [|d]; [reflexivity|]). lia.
Qed.
Lemma read_show_exp e : read_exp (show_exp e) = Some e.
Proof.
  unfold show_exp. destruct (nonneg_uint (Z.abs e) ltac:(lia)) as (u & E & N & ->).
  assert (V : Z.of_int (Decimal.Pos u) = Z.abs e) by (rewrite <- E; apply DecimalZ.of_to).
  assert (U : forall b : bool, NilZero.uint_of_string ((if b then "0" else "") ++ NilEmpty.string_of_uint u) = Some (if b then Decimal.D0 u else u)).
  { intros b. unfold NilZero.uint_of_string. destruct b.
    - change ("0" ++ NilEmpty.string_of_uint u)%string with (NilEmpty.string_of_uint (Decimal.D0 u)). rewrite NilEmpty.usu. reflexivity.
    - change ("" ++ NilEmpty.string_of_uint u)%string with (NilEmpty.string_of_uint u). rewrite NilEmpty.usu. destruct u; [contradiction|reflexivity..]. }
  assert (W : Z.of_int (Decimal.Pos (if Z.ltb (Z.abs e) 10 then Decimal.D0 u else u)) = Z.abs e) by (destruct (Z.ltb (Z.abs e) 10); exact V).
  destruct (Z.ltb_spec e 0) as [L|L]; cbn [append read_exp]; rewrite U; cbn [Ascii.eqb Bool.eqb]; rewrite W; f_equal; lia.
Qed.
Lemma read_show_mantissa s : digits (sc_int s :: sc_frac s) -> read_mantissa (show_mantissa s) = Some (sc_neg s, sc_int s, sc_frac s).
Proof.
  destruct s as [neg d f e]. cbn [sc_neg sc_int sc_frac]. unfold show_mantissa. cbn [sc_neg sc_int sc_frac]. intros H.
  assert (D : (d < 10)%nat) by (apply H; left; reflexivity).
  assert (DF : digits f) by (intros x X; apply H; right; exact X).
  assert (T : forall t, t = (show_digits [d] ++ match f with [] => "" | n :: l => "." ++ show_digits (n :: l) end)%string ->
    match split_on "."%char t with
    | [i] => match read_digits i with Some [d] => Some (neg, d, []) | _ => None end
    | [i; f] => match read_digits i, read_digits f with Some [d], Some (x :: l) => Some (neg, d, x :: l) | _, _ => None end
    | _ => None
    end = Some (neg, d, f)).
  { intros t ->. assert (D1 : digits [d]) by (intros x [<-|[]]; exact D). destruct f as [|x f].
    - rewrite sapp_nil_r. rewrite split_on_nochar by (apply no_dot, D1). rewrite read_show by exact D1. reflexivity.
    - change ("." ++ show_digits (x :: f))%string with (String "." (show_digits (x :: f))). rewrite split_app by (apply no_dot, D1).
      rewrite split_on_nochar by (apply no_dot, DF). rewrite !read_show by assumption. reflexivity. }
  unfold read_mantissa. destruct neg.
  - change ("-" ++ ?x)%string with (String "-" x). apply T. reflexivity.
  - change ("" ++ ?x)%string with x. set (t := (show_digits [d] ++ _)%string). specialize (T t eq_refl).
    assert (NE : exists c r, t = String c r /\ c <> "-"%char).
    { unfold t. cbn [show_digits append]. eexists _, _. split; [reflexivity|]. do 10 (destruct d as [|d]; [discriminate|]). lia. }
    destruct NE as (c & r & EC & NC). clearbody t. subst t.
    destruct c as [b0 b1 b2 b3 b4 b5 b6 b7]. destruct b0, b1, b2, b3, b4, b5, b6, b7; try exact T; exfalso; apply NC; reflexivity.
Qed.
Lemma read_back s : digits (sc_int s :: sc_frac s) -> read_sci (show_num (Dec s)) = Some s.
Proof.
  intros H. unfold read_sci. cbn [show_num]. change ("e" ++ show_exp (sc_exp s))%string with (String "e" (show_exp (sc_exp s))).
  rewrite split_app by (apply mantissa_no; [exact H|apply not_mantissa; cbn; tauto]).
  rewrite split_on_nochar.
  - rewrite read_show_mantissa by exact H. rewrite read_show_exp. destruct s; reflexivity.
  - unfold show_exp. rewrite !has_char_app, (digits_no "e" (show_Z _)); [|cbn; intuition discriminate|apply show_nat_digits; lia].
    destruct (Z.ltb (sc_exp s) 0), (Z.ltb (Z.abs (sc_exp s)) 10); reflexivity.
Qed.
Lemma show_num_no c n : printed n -> In c (list_ascii_of_string " $=p\") -> has_char c (show_num n) = false.
Proof.
  intros H I. destruct n as [s| |neg].
  - cbn [show_num]. unfold show_exp. rewrite !has_char_app, mantissa_no; [|apply H|].
    + rewrite (digits_no c (show_Z _)); [|cbn in *; repeat destruct I as [<-|I]; try contradiction; intuition discriminate|apply show_nat_digits; lia].
      cbn in I. repeat destruct I as [<-|I]; try contradiction; destruct (Z.ltb (sc_exp s) 0), (Z.ltb (Z.abs (sc_exp s)) 10); reflexivity.
    + apply not_mantissa. cbn in *. tauto.
  - cbn in I. repeat destruct I as [<-|I]; try contradiction; reflexivity.
  - cbn in I. repeat destruct I as [<-|I]; try contradiction; destruct neg; reflexivity.
Qed.
Lemma despace a b : replace " " "" (a ++ b) = (replace " " "" a ++ replace " " "" b)%string.
Proof. apply replace_cut; [discriminate|]. right. destruct b; reflexivity. Qed.
Lemma no_spaces s : has_char " " s = false -> replace " " "" s = s.
Proof. intros H. apply replace_none. apply (contains_char " "); [reflexivity|exact H]. Qed.
Lemma lstrip_none cs s : (forall c, has_char c cs = true -> has_char c s = false) -> lstrip cs s = s.
Proof.
  destruct s as [|c s]; intros H; [reflexivity|]. cbn [lstrip]. destruct (has_char c cs) eqn:E; [|reflexivity].
  specialize (H c E). cbn in H. rewrite ascii_eqb_refl in H. discriminate.
Qed.
Lemma no_dollar s : has_char "$" s = false -> strip "$" s = s.
Proof.
  intros H. assert (G : forall c, has_char c "$" = true -> has_char c s = false).
  { intros c Hc. cbn in Hc. rewrite orb_false_r in Hc. apply Ascii.eqb_eq in Hc. subst c. exact H. }
  unfold strip. rewrite lstrip_none by exact G. apply rstrip_none, G.
Qed.
Lemma strip_line p : quiet (fst p) -> printed (fst (snd p)) -> strip_uncertainty (popt_line p) = (fst p ++ " = " ++ show_num (fst (snd p)) ++ " ")%string.
Proof.
  destruct p as [name [v u]]. cbn [fst snd]. intros Q HV. unfold strip_uncertainty, popt_line. cbn [fst snd].
  replace (name ++ " = " ++ show_num v ++ " \pm " ++ show_num u)%string with ((name ++ " = " ++ show_num v ++ " ") ++ "\pm" ++ " " ++ show_num u)%string
    by (rewrite !sapp_assoc; reflexivity).
  assert (NP : Labels.contains "\pm" (show_num v) = false) by (apply (contains_char "p"); [reflexivity|apply show_num_no; [exact HV|cbn; tauto]]).
  rewrite (split_prepend "\pm") with (h := "") (t := split_str "\pm" (" " ++ show_num u)).
  - cbn [hd]. rewrite sapp_nil_r. reflexivity.
  - apply contains_cut; [apply cut_first; reflexivity|apply Q; cbn; tauto|]. apply contains_cut; [left; reflexivity|reflexivity|].
    apply contains_cut; [apply cut_first; reflexivity|exact NP|reflexivity].
  - apply cut_first. reflexivity.
  - apply split_hit. discriminate.
Qed.
Lemma simplified p : quiet (fst p) -> has_char "=" (fst p) = false -> printed (fst (snd p)) ->
  simplify1 (strip_uncertainty (popt_line p)) = (replace " " "" (fst p) ++ " = " ++ paper_text (fst (snd p)))%string.
Proof.
  intros Q NE HV. rewrite strip_line by assumption. destruct p as [name [v u]]. cbn [fst snd] in *. unfold simplify1.
  assert (D : strip "$" (name ++ " = " ++ show_num v ++ " ") = (name ++ " = " ++ show_num v ++ " ")%string).
  { apply no_dollar. destruct Q as (_ & Q & _). rewrite !has_char_app, Q, show_num_no by (assumption || (cbn; tauto)). reflexivity. }
  rewrite D. rewrite !despace, (no_spaces (show_num v)) by (apply show_num_no; [exact HV|cbn; tauto]).
  change (replace " " "" " = ") with "=". change (replace " " "" " ") with "". rewrite sapp_nil_r.
  change ("=" ++ show_num v)%string with (String "=" (show_num v)). rewrite split_app by (apply replace_free; [reflexivity|exact NE]).
  rewrite split_on_nochar by (apply show_num_no; [exact HV|cbn; tauto]). unfold float_str.
  destruct v as [s| |neg]; [rewrite read_back by apply HV; reflexivity|reflexivity|destruct neg; reflexivity].
Qed.

(* ---------------------------------------------------------------- the number shown *)
Lemma value_trimmed s e d f : trim (sc_int s :: sc_frac s) = d :: f ->
  sci_value (with_exponent s e) = number (sc_neg s) (d :: f) (e - Z.of_nat (List.length f)).
Proof.
  intros E. unfold sci_value, with_exponent. cbn [sc_neg sc_int sc_frac sc_exp]. destruct (trim_spec (sc_int s :: sc_frac s)) as (n & H). rewrite E in H.
  rewrite H, number_zeros. f_equal. assert (L : List.length (sc_int s :: sc_frac s) = (List.length (d :: f) + n)%nat) by (rewrite H, app_length, repeat_length; reflexivity).
  cbn [List.length] in L. lia.
Qed.
Lemma value_zero s e : trim (sc_int s :: sc_frac s) = [] -> sci_value (with_exponent s e) = 0%R.
Proof.
  intros E. unfold sci_value, with_exponent. cbn [sc_neg sc_int sc_frac sc_exp]. destruct (trim_spec (sc_int s :: sc_frac s)) as (n & H). rewrite E in H.
  unfold number. rewrite H. cbn [app]. rewrite value_zeros. ring.
Qed.
Lemma same_exponent s : sci_value (with_exponent s (sc_exp s)) = sci_value s.
Proof. reflexivity. Qed.
Lemma strip_end cs x c : has_char c cs = true -> rstrip cs (x ++ String c "") = rstrip cs x.
Proof.
  intros H. induction x as [|d x IH]; [cbn [append rstrip]; rewrite H; reflexivity|]. change (String d x ++ String c "")%string with (String d (x ++ String c "")%string).
  cbn [rstrip]. rewrite IH. reflexivity.
Qed.
Lemma show_digits_app a b : show_digits (a ++ b) = (show_digits a ++ show_digits b)%string.
Proof. induction a as [|d a IH]; [reflexivity|]. cbn [app show_digits append]. rewrite IH. reflexivity. Qed.
Lemma digits_app a b : digits a -> digits b -> digits (a ++ b).
Proof. intros A B d D. apply in_app_or in D. destruct D; auto. Qed.
Lemma digits_zeros n : digits (repeat 0%nat n).
Proof. intros d D. apply repeat_spec in D. subst d. lia. Qed.
Lemma show_nonempty l : l <> [] -> show_digits l <> "".
Proof. destruct l; [contradiction|discriminate]. Qed.
Lemma last_value k d : digits (k ++ [d]) -> (digits_value (k ++ [d]) mod 10 = Z.of_nat d)%Z.
Proof.
  intros H. rewrite value_app. cbn [List.length]. change (digits_value [d]) with (10 * 0 + Z.of_nat d)%Z. change (10 ^ Z.of_nat 1)%Z with 10%Z.
  assert (d < 10)%nat by (apply H, in_or_app; right; left; reflexivity).
  rewrite Z.add_comm, Z.mod_add by lia. apply Z.mod_small. lia.
Qed.

(** In positional notation the simplified text is the number. *)
Lemma positional_text s : digits (sc_int s :: sc_frac s) -> positional (sc_exp s) -> denotes (paper_text (Dec s)) (sci_value s).
Proof.
  intros HD [P1 P2]. rewrite <- same_exponent. cbn [paper_text]. unfold repr_sci. pose proof (trim_digits _ HD) as TD.
  destruct (trim (sc_int s :: sc_frac s)) as [|d f] eqn:ET.
  - rewrite (value_zero _ _ ET). exists (sc_neg s), [0%nat], [], false, []. split; [intros x [<-|[]]; lia|]. split; [discriminate|]. split; [destruct (sc_neg s); reflexivity|].
    unfold number, digits_value. cbn. ring.
  - rewrite (value_trimmed _ _ _ _ ET). replace (Z.leb (-4) (sc_exp s)) with true by (symmetry; apply Z.leb_le; lia).
    replace (Z.ltb (sc_exp s) 16) with true by (symmetry; apply Z.ltb_lt; lia). cbn [andb]. set (e := sc_exp s) in *. set (sg := if sc_neg s then "-" else "").
    destruct (trim_last _ _ _ ET) as (k & z & EK & NZ). rewrite ET in EK. rewrite EK in TD.
    destruct (Z.ltb_spec e 0) as [L|L].
    + replace (sg ++ "0." ++ show_digits (repeat 0%nat (Z.to_nat (- e - 1)) ++ d :: f))%string
        with ((sg ++ "0.") ++ show_digits ((repeat 0%nat (Z.to_nat (- e - 1)) ++ k) ++ [z]))%string by (rewrite EK, <- app_assoc, sapp_assoc; reflexivity).
      assert (DA : digits ((repeat 0%nat (Z.to_nat (- e - 1)) ++ k) ++ [z])) by (rewrite <- app_assoc; apply digits_app; [apply digits_zeros|exact TD]).
      rewrite strip_kept by assumption.
      exists (sc_neg s), [0%nat], ((repeat 0%nat (Z.to_nat (- e - 1)) ++ k) ++ [z])%list, false, [].
      split; [rewrite app_nil_r; apply (digits_app [0%nat]); [intros x [<-|[]]; lia|exact DA]|]. split; [discriminate|]. split.
      * rewrite sapp_nil_r. destruct ((repeat 0%nat (Z.to_nat (- e - 1)) ++ k) ++ [z])%list as [|x l] eqn:EX; [exfalso; destruct (repeat 0%nat (Z.to_nat (- e - 1)) ++ k)%list; discriminate|].
        fold sg. rewrite sapp_assoc. reflexivity.
      * rewrite <- app_assoc, <- EK. rewrite (number_leading _ 1), number_leading, app_length, repeat_length. f_equal. cbn [List.length digits_value fold_left].
        change (digits_value []) with 0%Z. lia.
    + set (n := S (Z.to_nat e)). cbv zeta. destruct (le_lt_dec (List.length (d :: f)) n) as [LE|LT].
      * set (all := ((d :: f) ++ repeat 0%nat (n - List.length (d :: f)))%list).
        assert (LA : List.length all = n) by (unfold all; rewrite app_length, repeat_length; lia).
        rewrite firstn_all2, skipn_all2 by lia.
        assert (DA : digits all) by (unfold all; apply digits_app; [rewrite EK; exact TD|apply digits_zeros]).
        replace (sg ++ show_digits all ++ "." ++ "0")%string with ((sg ++ show_digits all ++ ".") ++ String "0" "")%string by (rewrite !sapp_assoc; reflexivity).
        rewrite strip_end by reflexivity. replace (sg ++ show_digits all ++ ".")%string with ((sg ++ show_digits all) ++ String "." "")%string by (rewrite !sapp_assoc; reflexivity).
        rewrite rstrip_last by reflexivity. rewrite strip_end by reflexivity.
        rewrite rstrip_app; rewrite rstrip_digits_dot by exact DA; [|apply show_nonempty; discriminate].
        exists (sc_neg s), all, [], false, []. split; [rewrite !app_nil_r; exact DA|]. split; [discriminate|]. split; [cbn [append]; rewrite sapp_nil_r; reflexivity|].
        rewrite app_nil_r. unfold all. rewrite number_zeros. f_equal. change (digits_value []) with 0%Z. change (List.length (@nil nat)) with 0%nat. unfold n in *. cbn [List.length] in *. lia.
      * replace (n - List.length (d :: f))%nat with 0%nat by lia. cbn [repeat]. rewrite app_nil_r.
        assert (ES : exists q, skipn n (d :: f) = (q ++ [z])%list).
        { rewrite EK. exists (skipn n k). rewrite skipn_app. assert (LK : (n <= List.length k)%nat) by (rewrite EK, app_length in LT; cbn in LT; lia).
          replace (n - List.length k)%nat with 0%nat by lia. reflexivity. }
        destruct ES as (q & ES). rewrite ES.
        assert (DQ : digits (q ++ [z])) by (intros x X; apply TD; rewrite <- EK, <- (firstn_skipn n (d :: f)); apply in_or_app; right; rewrite ES; exact X).
        replace (match (q ++ [z])%list with [] => "0" | r => show_digits r end) with (show_digits (q ++ [z])) by (destruct q; reflexivity).
        replace (sg ++ show_digits (firstn n (d :: f)) ++ "." ++ show_digits (q ++ [z]))%string with ((sg ++ show_digits (firstn n (d :: f)) ++ ".") ++ show_digits (q ++ [z]))%string by (rewrite !sapp_assoc; reflexivity).
        rewrite strip_kept by assumption.
        exists (sc_neg s), (firstn n (d :: f)), (q ++ [z])%list, false, []. split; [|split; [unfold n; discriminate|split]].
        -- rewrite app_nil_r, <- ES, firstn_skipn, EK. exact TD.
        -- rewrite sapp_nil_r. fold sg. rewrite !sapp_assoc. f_equal. f_equal. destruct q; reflexivity.
        -- rewrite <- ES, firstn_skipn. f_equal. rewrite skipn_length. change (digits_value []) with 0%Z. unfold n in *. cbn [List.length] in *. lia.
Qed.
(** Otherwise it is the number with another exponent: the zeros at the end of the exponent are stripped, too. *)
Lemma exponent_text s : digits (sc_int s :: sc_frac s) -> ~ positional (sc_exp s) -> trim (sc_int s :: sc_frac s) <> [] ->
  exists e j, sc_exp s = (e * 10 ^ Z.of_nat j)%Z /\ ~ (10 | e)%Z /\ denotes (paper_text (Dec s)) (sci_value (with_exponent s e)).
Proof.
  intros HD NP NZ. cbn [paper_text]. unfold repr_sci. pose proof (trim_digits _ HD) as TD.
  destruct (trim (sc_int s :: sc_frac s)) as [|d f] eqn:ET; [contradiction|].
  replace ((Z.leb (-4) (sc_exp s) && Z.ltb (sc_exp s) 16)%bool) with false
    by (symmetry; unfold positional in NP; destruct (Z.leb_spec (-4) (sc_exp s)), (Z.ltb_spec (sc_exp s) 16); try reflexivity; lia).
  set (e := sc_exp s) in *. set (sg := if sc_neg s then "-" else "").
  destruct (show_Z_digits (Z.abs e) ltac:(lia)) as (l & DL & NL & EL & VL).
  set (pad := if Z.ltb (Z.abs e) 10 then [0%nat] else []). set (x := (pad ++ l)%list).
  assert (DX : digits x) by (apply digits_app; [unfold pad; destruct (Z.ltb (Z.abs e) 10); [intros y [<-|[]]; lia|intros y []]|exact DL]).
  assert (VX : digits_value x = Z.abs e) by (unfold x; rewrite value_app, VL; unfold pad; destruct (Z.ltb (Z.abs e) 10); reflexivity).
  assert (SX : show_exp e = ((if Z.ltb e 0 then "-" else "+") ++ show_digits x)%string).
  { unfold show_exp, x. rewrite show_digits_app, EL. f_equal. f_equal. unfold pad. destruct (Z.ltb (Z.abs e) 10); reflexivity. }
  rewrite SX. destruct (trim_spec x) as (j & TX).
  destruct (trim x) as [|t0 tt] eqn:ETX.
  { exfalso. rewrite TX in VX. cbn [app] in VX. rewrite value_zeros in VX. unfold positional in NP. lia. }
  destruct (trim_last _ _ _ ETX) as (k & z & EK & NZ2). rewrite ETX in EK.
  assert (DT : digits (t0 :: tt)) by (rewrite <- ETX; apply trim_digits, DX).
  exists (if Z.ltb e 0 then - digits_value (t0 :: tt) else digits_value (t0 :: tt))%Z, j.
  assert (VE : Z.abs e = (digits_value (t0 :: tt) * 10 ^ Z.of_nat j)%Z) by (rewrite <- VX, TX at 1; rewrite value_app, value_zeros, repeat_length; lia).
  split; [destruct (Z.ltb_spec e 0); lia|]. split.
  - assert (M : (digits_value (t0 :: tt) mod 10 <> 0)%Z) by (rewrite EK, last_value by (rewrite <- EK; exact DT); lia).
    intros DV. apply M. apply Z.mod_divide; [lia|]. destruct (Z.ltb e 0); [apply Z.divide_opp_r; exact DV|exact DV].
  - set (m := match f with [] => "" | _ => ("." ++ show_digits f)%string end).
    replace (sg ++ show_digits [d] ++ m ++ "e" ++ (if Z.ltb e 0 then "-" else "+") ++ show_digits x)%string
      with ((sg ++ show_digits [d] ++ m ++ "e" ++ (if Z.ltb e 0 then "-" else "+")) ++ show_digits x)%string by (rewrite !sapp_assoc; reflexivity).
    rewrite (rstrip_app "0"); rewrite rstrip_digits, ETX by exact DX; [|discriminate].
    rewrite (rstrip_app "."); rewrite rstrip_digits_dot by exact DT; [|discriminate].
    rewrite (value_trimmed _ _ _ _ ET). exists (sc_neg s), [d], f, (Z.ltb e 0), (t0 :: tt).
    split; [apply (digits_app [d]); [intros y [<-|[]]; apply TD; left; reflexivity|apply digits_app; [intros y Y; apply TD; right; exact Y|exact DT]]|].
    split; [discriminate|]. split; [rewrite !sapp_assoc; reflexivity|]. reflexivity.
Qed.

(* ---------------------------------------------------------------- a text denotes one number *)
Lemma show_inj a b : digits a -> digits b -> show_digits a = show_digits b -> a = b.
Proof. intros A B E. assert (X : Some a = Some b) by (rewrite <- (read_show a A), <- (read_show b B), E; reflexivity). congruence. Qed.
Lemma denotes_split neg ip fp eneg ed : digits (ip ++ fp ++ ed) -> ip <> [] ->
  let t := ((if neg : bool then "-" else "") ++ show_digits ip ++ (match fp with [] => "" | _ => "." ++ show_digits fp end)
          ++ (match ed with [] => "" | _ => "e" ++ (if eneg : bool then "-" else "+") ++ show_digits ed end))%string in
  let m := ((if neg : bool then "-" else "") ++ show_digits ip ++ (match fp with [] => "" | _ => "." ++ show_digits fp end))%string in
  split_on "e"%char t = m :: match ed with [] => [] | _ => [((if eneg : bool then "-" else "+") ++ show_digits ed)%string] end
  /\ split_on "."%char m = ((if neg : bool then "-" else "") ++ show_digits ip)%string :: match fp with [] => [] | _ => [show_digits fp] end.
Proof.
  intros D N. cbv zeta. assert (D1 : digits ip) by (intros x X; apply D, in_or_app; left; exact X).
  assert (D2 : digits fp) by (intros x X; apply D, in_or_app; right; apply in_or_app; left; exact X).
  assert (D3 : digits ed) by (intros x X; apply D, in_or_app; right; apply in_or_app; right; exact X).
  assert (NE : forall l, digits l -> has_char "e" (show_digits l) = false) by (intros l H; apply digits_no; [cbn; intuition discriminate|apply digits_text, H]).
  split.
  - set (m := (_ ++ show_digits ip ++ match fp with [] => "" | _ => _ end)%string).
    assert (NM : has_char "e" m = false).
    { unfold m. rewrite !has_char_app, (NE ip D1). destruct fp as [|x fp]; [destruct neg; reflexivity|]. rewrite has_char_app, NE by exact D2. destruct neg; reflexivity. }
    replace (_ ++ _ ++ _ ++ _)%string with (m ++ match ed with [] => "" | _ => "e" ++ (if eneg then "-" else "+") ++ show_digits ed end)%string by (unfold m; rewrite !sapp_assoc; reflexivity).
    destruct ed as [|x ed]; [rewrite sapp_nil_r; apply split_on_nochar, NM|].
    change ("e" ++ ?y)%string with (String "e" y). rewrite split_app by exact NM. rewrite split_on_nochar; [reflexivity|]. rewrite has_char_app, NE by exact D3. destruct eneg; reflexivity.
  - assert (NI : has_char "." ((if neg then "-" else "") ++ show_digits ip) = false) by (rewrite has_char_app, no_dot by exact D1; destruct neg; reflexivity).
    destruct fp as [|x fp]; [rewrite sapp_nil_r; apply split_on_nochar, NI|].
    replace (_ ++ _ ++ _)%string with (((if neg then "-" else "") ++ show_digits ip) ++ String "." (show_digits (x :: fp)))%string by (rewrite !sapp_assoc; reflexivity).
    rewrite split_app by exact NI. rewrite split_on_nochar by (apply no_dot, D2). reflexivity.
Qed.
Lemma signed_inj (n1 n2 : bool) a b : digits a -> digits b -> a <> [] -> b <> [] ->
  ((if n1 then "-" else "") ++ show_digits a)%string = ((if n2 then "-" else "") ++ show_digits b)%string -> n1 = n2 /\ a = b.
Proof.
  intros A B NA NB E. assert (X : forall l k, digits l -> l <> [] -> show_digits l = ("-" ++ k)%string -> False).
  { intros l k L NL H. assert (Y : has_char "-" (show_digits l) = false) by (apply digits_no; [cbn; intuition discriminate|apply digits_text, L]). rewrite H in Y. discriminate. }
  destruct n1, n2; cbn [append] in E.
  - split; [reflexivity|]. apply show_inj; [assumption..|congruence].
  - exfalso. exact (X b _ B NB (eq_sym E)).
  - exfalso. exact (X a _ A NA E).
  - split; [reflexivity|]. apply show_inj; assumption.
Qed.
Lemma denotes_unique t x y : denotes t x -> denotes t y -> x = y.
Proof.
  intros (n1 & i1 & f1 & s1 & e1 & D1 & N1 & T1 & ->) (n2 & i2 & f2 & s2 & e2 & D2 & N2 & T2 & ->).
  pose proof (denotes_split n1 i1 f1 s1 e1 D1 N1) as [A1 B1]. pose proof (denotes_split n2 i2 f2 s2 e2 D2 N2) as [A2 B2]. cbv zeta in A1, A2, B1, B2.
  rewrite <- T1 in A1. rewrite <- T2, A1 in A2.
  set (m1 := (_ ++ show_digits i1 ++ match f1 with [] => "" | _ => _ end)%string) in *. set (m2 := (_ ++ show_digits i2 ++ match f2 with [] => "" | _ => _ end)%string) in *.
  assert (EM : m1 = m2) by congruence.
  assert (EE : match e1 with [] => [] | _ => [((if s1 then "-" else "+") ++ show_digits e1)%string] end = match e2 with [] => [] | _ => [((if s2 then "-" else "+") ++ show_digits e2)%string] end) by congruence.
  clear A1 A2. rewrite EM, B2 in B1.
  assert (EI : ((if n2 then "-" else "") ++ show_digits i2)%string = ((if n1 then "-" else "") ++ show_digits i1)%string) by congruence.
  assert (EF : match f2 with [] => [] | _ => [show_digits f2] end = match f1 with [] => [] | _ => [show_digits f1] end) by congruence.
  assert (P : forall a b c, digits (a ++ b ++ c) -> digits a /\ digits b /\ digits c).
  { intros a b c H. repeat split; intros z Z; apply H; rewrite !in_app_iff; tauto. }
  destruct (P _ _ _ D1) as (DI1 & DF1 & DE1). destruct (P _ _ _ D2) as (DI2 & DF2 & DE2).
  destruct (signed_inj _ _ _ _ DI2 DI1 N2 N1 EI) as [-> ->].
  assert (FF : f2 = f1). { destruct f2, f1; try discriminate; [reflexivity|]. apply show_inj; [assumption..|]. congruence. }
  rewrite FF. f_equal. f_equal.
  destruct e1 as [|a1 l1], e2 as [|a2 l2]; try discriminate.
  - destruct s1, s2; reflexivity.
  - assert (EQ : ((if s1 then "-" else "+") ++ show_digits (a1 :: l1))%string = ((if s2 then "-" else "+") ++ show_digits (a2 :: l2))%string) by congruence.
    assert (SS : s1 = s2). { destruct s1, s2; try reflexivity; cbn [append] in EQ; discriminate. }
    rewrite SS in *. assert (LL : a1 :: l1 = a2 :: l2). { apply show_inj; [assumption..|]. destruct s2; cbn [append] in EQ; congruence. }
    rewrite LL. reflexivity.
Qed.

(* ---------------------------------------------------------------- lines that are not simplified *)
Lemma uint_text s : forall u, NilEmpty.uint_of_string s = Some u -> all_chars digit s.
Proof.
  induction s as [|c s IH]; intros u H; [exact Logic.I|]. cbn [NilEmpty.uint_of_string] in H. destruct (NilEmpty.uint_of_string s) as [v|] eqn:E.
  - split; [|exact (IH v eq_refl)]. destruct c as [b0 b1 b2 b3 b4 b5 b6 b7]; destruct b0, b1, b2, b3, b4, b5, b6, b7; try discriminate H; cbn; tauto.
  - exfalso. destruct c as [b0 b1 b2 b3 b4 b5 b6 b7]; destruct b0, b1, b2, b3, b4, b5, b6, b7; discriminate H.
Qed.
Lemma read_digits_text s : forall l, read_digits s = Some l -> all_chars digit s.
Proof.
  induction s as [|c s IH]; intros l H; [exact Logic.I|]. cbn [read_digits] in H. destruct (_ && _)%bool eqn:C; [|discriminate].
  destruct (read_digits s) as [k|]; [|discriminate]. split; [|exact (IH k eq_refl)]. apply andb_prop in C. destruct C as [C1 C2]. apply Nat.leb_le in C1, C2.
  rewrite <- (ascii_nat_embedding c). set (n := nat_of_ascii c) in *. clearbody n.
  assert (X : (n = 48 \/ n = 49 \/ n = 50 \/ n = 51 \/ n = 52 \/ n = 53 \/ n = 54 \/ n = 55 \/ n = 56 \/ n = 57)%nat) by lia.
  repeat destruct X as [->|X]; try (subst n); cbn; tauto.
Qed.
Lemma digits_absent c s : has_char c "0123456789.e+-" = false -> all_chars digit s -> has_char c s = false.
Proof.
  intros H. apply digits_no. intros D. cbn in D. repeat destruct D as [<-|D]; try contradiction; discriminate H.
Qed.
Lemma not_number b c : has_char c b = true -> has_char c "0123456789.e+-" = false -> read_sci b = None.
Proof.
  intros HC NC. destruct (read_sci b) as [s|] eqn:E; [|reflexivity]. exfalso. unfold read_sci in E.
  pose proof (join_split "e" b) as J. destruct (split_on "e" b) as [|m [|x [|]]]; try discriminate. cbn [join] in J. rewrite <- J in HC.
  assert (NE : has_char c "e" = false) by (destruct (has_char c "e") eqn:X; [|reflexivity]; cbn in X; rewrite orb_false_r in X; apply Ascii.eqb_eq in X; subst c; discriminate NC).
  assert (NM : has_char c "-" = false) by (destruct (has_char c "-") eqn:X; [|reflexivity]; cbn in X; rewrite orb_false_r in X; apply Ascii.eqb_eq in X; subst c; discriminate NC).
  assert (ND : has_char c "." = false) by (destruct (has_char c ".") eqn:X; [|reflexivity]; cbn in X; rewrite orb_false_r in X; apply Ascii.eqb_eq in X; subst c; discriminate NC).
  assert (NP : has_char c "+" = false) by (destruct (has_char c "+") eqn:X; [|reflexivity]; cbn in X; rewrite orb_false_r in X; apply Ascii.eqb_eq in X; subst c; discriminate NC).
  destruct (read_mantissa m) as [[[neg d] f]|] eqn:EM; [|discriminate]. destruct (read_exp x) as [z|] eqn:EX; [|discriminate].
  assert (CX : has_char c x = false).
  { unfold read_exp in EX. destruct x as [|k r]; [discriminate|]. destruct (NilZero.uint_of_string r) as [u|] eqn:U; [|discriminate].
    assert (DR : all_chars digit r) by (unfold NilZero.uint_of_string in U; destruct r; [discriminate|]; exact (uint_text _ _ U)).
    cbn [has_char]. rewrite (digits_absent c r NC DR), orb_false_r. destruct (Ascii.eqb c k) eqn:K; [|reflexivity]. apply Ascii.eqb_eq in K. subst k.
    destruct (Ascii.eqb c "+") eqn:K1; [apply Ascii.eqb_eq in K1; subst c; discriminate NC|]. destruct (Ascii.eqb c "-") eqn:K2; [apply Ascii.eqb_eq in K2; subst c; discriminate NC|discriminate]. }
  assert (CM : has_char c m = false).
  { assert (T : forall t : string, match split_on "."%char t with
        | [i] => match read_digits i with Some [d] => Some (neg, d, []) | _ => None end
        | [i; f] => match read_digits i, read_digits f with Some [d], Some (x :: l) => Some (neg, d, x :: l) | _, _ => None end
        | _ => None end = Some (neg, d, f) -> has_char c t = false).
    { intros t Ht. pose proof (join_split "." t) as JT. destruct (split_on "." t) as [|i [|g [|]]]; try discriminate; cbn [join] in JT; rewrite <- JT.
      - destruct (read_digits i) as [li|] eqn:RI; [|discriminate]. exact (digits_absent c i NC (read_digits_text i li RI)).
      - destruct (read_digits i) as [li|] eqn:RI; [|discriminate]. destruct (read_digits g) as [lg|] eqn:RG; [|destruct li as [|? [|]]; discriminate].
        rewrite !has_char_app, ND, (digits_absent c i NC (read_digits_text i li RI)), (digits_absent c g NC (read_digits_text g lg RG)). reflexivity. }
    unfold read_mantissa in EM. destruct m as [|k m]; [reflexivity|].
    assert (K : (k = "-"%char /\ exists g, g = m) \/ k <> "-"%char) by (destruct (ascii_dec k "-"); [left; split; [assumption|eexists; reflexivity]|right; assumption]).
    destruct K as [[-> _]|K].
    - assert (EN : neg = true). { destruct (split_on "." m) as [|i [|g [|]]]; try discriminate; destruct (read_digits i) as [[|? [|]]|]; try discriminate; try (destruct (read_digits g) as [[|]|]; try discriminate); congruence. }
      subst neg. cbn [has_char]. change (String "-" ?r) with ("-" ++ r)%string in *. assert (NM2 : Ascii.eqb c "-" = false) by (cbn in NM; rewrite orb_false_r in NM; exact NM).
      rewrite NM2. cbn [orb]. apply T. exact EM.
    - apply T. assert (X : match split_on "."%char (String k m) with
        | [i] => match read_digits i with Some [d] => Some (false, d, []) | _ => None end
        | [i; f] => match read_digits i, read_digits f with Some [d], Some (x :: l) => Some (false, d, x :: l) | _, _ => None end
        | _ => None end = Some (neg, d, f)).
      { destruct k as [b0 b1 b2 b3 b4 b5 b6 b7]; destruct b0, b1, b2, b3, b4, b5, b6, b7; try exact EM; exfalso; apply K; reflexivity. }
      assert (EN : neg = false). { destruct (split_on "." (String k m)) as [|i [|g [|]]]; try discriminate; destruct (read_digits i) as [[|? [|]]|]; try discriminate; try (destruct (read_digits g) as [[|]|]; try discriminate); congruence. }
      subst neg. exact X. }
  rewrite !has_char_app, CM, CX, NE in HC. discriminate.
Qed.
Lemma kept_line l : has_char "$" l = false -> no_number l -> simplify1 l = l.
Proof.
  intros D N. unfold simplify1. rewrite no_dollar by exact D. unfold no_number in N. destruct (split_on "=" (replace " " "" l)) as [|a [|b k]]; [reflexivity|reflexivity|].
  destruct (N a b k eq_refl) as (N1 & N2 & N3 & c & C1 & C2). unfold float_str. rewrite (not_number b c C1 C2).
  apply String.eqb_neq in N1, N2, N3. unfold mem_str. cbn [existsb]. rewrite N1, N2, N3. reflexivity.
Qed.

(* ---------------------------------------------------------------- the whole text *)
Lemma assemble F ST RS : F <> [] -> block F -> block ST -> block RS ->
  replace (nl ++ nl ++ nl) (nl ++ nl) (join nl (F ++ match ST with [] => [] | _ => nl :: ST end ++ RS))
  = (join nl F ++ match ST with [] => "" | _ => nl ++ nl ++ join nl ST end ++ match RS with [] => "" | _ => nl ++ join nl RS end)%string.
Proof.
  intros FN FB SB RB.
  assert (AB : forall a b, block a -> block b -> block (a ++ b)) by (intros a b A B x Hx; apply in_app_or in Hx; destruct Hx; auto).
  destruct ST as [|y l].
  - cbn [app]. rewrite three_block by (apply AB; assumption). cbn [append]. destruct RS as [|w k].
    + rewrite app_nil_r, sapp_nil_r. reflexivity.
    + rewrite join_app by (assumption || discriminate). reflexivity.
  - change ((nl :: y :: l) ++ RS)%list with (nl :: ((y :: l) ++ RS))%list. rewrite three_blocks; [|exact FN|discriminate|exact FB|apply AB; assumption].
    destruct RS as [|w k].
    + rewrite app_nil_r, sapp_nil_r, ?sapp_assoc. reflexivity.
    + rewrite (join_app (y :: l)) by discriminate. rewrite !sapp_assoc. reflexivity.
Qed.
Notation inf := (replace "inf" "\infty").
Definition infinite (n : num) : string := match n with Inf neg => (if neg then "-" else "") ++ "\infty" | _ => paper_text n end.
Definition paper_parameter (p : string * (num * num)) : string := math (fst p ++ " = " ++ infinite (fst (snd p))).

(** [infinite] in terms of the number: nan, the sign of infinity, or a text of characters that numbers are written in *)
Lemma rstrip_chars P cs s : all_chars P s -> all_chars P (rstrip cs s).
Proof.
  induction s as [|c s IH]; intros H; [exact Logic.I|]. destruct H as [H1 H2]. cbn [rstrip]. destruct (_ && _)%bool; [exact Logic.I|]. split; [exact H1|exact (IH H2)].
Qed.
Lemma paper_chars s : digits (sc_int s :: sc_frac s) -> all_chars (fun c => has_char c "0123456789.e+-" = true) (paper_text (Dec s)).
Proof.
  intros H. cbn [paper_text]. do 2 apply rstrip_chars. set (P := fun c => _). pose proof (trim_digits _ H) as TD.
  assert (DG : forall l, digits l -> all_chars P (show_digits l)).
  { intros l D. apply (all_chars_imp digit); [|apply digits_text, D]. intros c C. cbn in C. unfold P. repeat destruct C as [<-|C]; try contradiction; reflexivity. }
  unfold repr_sci. apply all_chars_app; [destruct (sc_neg s); repeat split|].
  destruct (trim (sc_int s :: sc_frac s)) as [|d f]; [repeat split|]. destruct (_ && _)%bool.
  - destruct (Z.ltb (sc_exp s) 0).
    + apply all_chars_app; [repeat split|]. apply DG. apply digits_app; [apply digits_zeros|exact TD].
    + cbv zeta. set (n := S _). set (all := ((d :: f) ++ _)%list). assert (DA : digits all) by (apply digits_app; [exact TD|apply digits_zeros]).
      apply all_chars_app; [apply DG; intros x X; apply DA; rewrite <- (firstn_skipn n all); apply in_or_app; left; exact X|]. apply all_chars_app; [repeat split|].
      destruct (skipn n all) as [|x r] eqn:E; [repeat split|]. apply DG. intros z X. apply DA. rewrite <- (firstn_skipn n all). apply in_or_app. right. rewrite E. exact X.
  - apply all_chars_app; [apply DG; intros x [<-|[]]; apply TD; left; reflexivity|]. apply all_chars_app.
    + destruct f as [|y f]; [exact Logic.I|]. apply all_chars_app; [repeat split|]. apply DG. intros x X. apply TD. right. exact X.
    + apply all_chars_app; [repeat split|]. unfold show_exp. apply all_chars_app; [destruct (Z.ltb (sc_exp s) 0); repeat split|]. apply all_chars_app; [destruct (Z.ltb (Z.abs (sc_exp s)) 10); repeat split|].
      apply (all_chars_imp digit); [|apply show_nat_digits; lia]. intros c C. cbn in C. unfold P. repeat destruct C as [<-|C]; try contradiction; reflexivity.
Qed.
Lemma paper_no c n : printed n -> c = "$"%char \/ c = newline \/ c = " "%char -> has_char c (paper_text n) = false.
Proof.
  intros H C. destruct n as [s| |neg].
  - refine (all_chars_no _ c _ _ (paper_chars s (proj1 H))). destruct C as [->|[->| ->]]; discriminate.
  - destruct C as [->|[->| ->]]; reflexivity.
  - destruct C as [->|[->| ->]]; destruct neg; reflexivity.
Qed.
Lemma inf_paper n : printed n -> inf (paper_text n) = infinite n.
Proof.
  intros H. destruct n as [s| |neg]; [|reflexivity|destruct neg; reflexivity]. cbn [infinite]. apply replace_none. apply (contains_char "i"); [reflexivity|].
  refine (all_chars_no _ "i"%char _ _ (paper_chars s (proj1 H))). discriminate.
Qed.
(** A report that can be simplified: the names of its parameters contain neither spaces nor "=", and the formula does not look like a parameter. *)
Definition paper_report (r : report) : Prop :=
  plain_report r /\ (forall p, In p (rp_popt r) -> has_char " " (fst p) = false /\ has_char "=" (fst p) = false)
  /\ (forall l, In l (split_on newline (rp_function r)) -> no_number l).

Section Paper.
  Variables (o : options) (r : report).
  Hypotheses (HP : paper_report r) (H2 : op_paper o = true) (H3 : op_rel o = false).
  Definition slim (x : string) : string := inf (final_line (simplify1 (strip_uncertainty x))).
  Lemma slim_other l : l <> "" -> Labels.contains "\pm" l = false -> has_char "$" l = false -> no_number l -> slim l = math (inf l).
  Proof.
    intros N P D B. unfold slim. assert (E : strip_uncertainty l = l) by (unfold strip_uncertainty; rewrite split_alone by exact P; reflexivity).
    rewrite E, kept_line by assumption. rewrite final_math by assumption. apply inf_math.
  Qed.
  Lemma brace_no_number a b c : has_char "=" a = false -> replace " " "" c = (a ++ "={" ++ b)%string -> no_number c.
  Proof.
    intros A E x y k H. rewrite E in H. change (a ++ "={" ++ b)%string with (a ++ String "=" (String "{" b))%string in H. rewrite split_app in H by exact A.
    cbn [split_on] in H. change (Ascii.eqb "=" "{") with false in H. cbv iota in H. destruct (split_on "=" b) as [|h t] eqn:EB; [exfalso; exact (split_on_nonempty _ _ EB)|].
    assert (Y : y = String "{" h) by congruence. subst y. repeat split; try discriminate. exists "{"%char. split; reflexivity.
  Qed.
  Lemma slim_npts n : let t := ("N_\mathrm{pts} = {" ++ show_Z (Z.of_nat n) ++ "}")%string in slim t = math t /\ has_char newline t = false.
  Proof.
    cbv zeta. set (d := show_Z (Z.of_nat n)). assert (D : all_chars digit d) by (apply show_nat_digits; lia).
    assert (ND : forall c, In c (list_ascii_of_string "$pi ") \/ c = newline -> has_char c d = false).
    { intros c Hc. apply digits_no; [|exact D]. cbn. destruct Hc as [Hc| ->]; [|intuition discriminate]. cbn in Hc. repeat destruct Hc as [<-|Hc]; try contradiction; intuition discriminate. }
    split; [|rewrite !has_char_app, ND by tauto; reflexivity]. rewrite slim_other.
    - rewrite (replace_none "inf"); [reflexivity|]. apply (contains_char "i"); [reflexivity|]. rewrite !has_char_app, ND by (cbn; tauto). reflexivity.
    - discriminate.
    - apply contains_cut; [apply (cut_first "\pm")|reflexivity|].
      + assert (X : all_chars digit d) by exact D. destruct d as [|c d']; [reflexivity|]. cbn [append first_in tail]. destruct X as [X _]. cbn in X. repeat destruct X as [<-|X]; try contradiction; reflexivity.
      + apply (contains_char "p"); [reflexivity|]. rewrite has_char_app, ND by (cbn; tauto). reflexivity.
    - rewrite !has_char_app, ND by (cbn; tauto). reflexivity.
    - apply (brace_no_number "N_\mathrm{pts}" (d ++ "}")); [reflexivity|]. rewrite !despace, (no_spaces d) by (apply ND; cbn; tauto). reflexivity.
  Qed.
  Lemma slim_chisq : slim (chisq_line r) = shown_chisq r /\ has_char newline (chisq_line r) = false.
  Proof.
    destruct HP as ((_ & _ & F1 & F2 & _) & _). destruct (fixed_plain _ F1) as [P1 I1]. destruct (fixed_plain _ F2) as [P2 I2].
    unfold chisq_line. set (a := fst (rp_chisq r)) in *. set (b := snd (rp_chisq r)) in *.
    split; [|rewrite !has_char_app, P1, P2 by tauto; reflexivity]. rewrite slim_other.
    - unfold shown_chisq. fold a b. f_equal. set (mid := "} \; \; \; \; \; \; \; \; \; \; \; \; \; \; \; \; \chi^2_{\nu;R} = {").
      assert (S : forall x y, inf (x ++ String "{" y) = (inf x ++ String "{" (inf y))%string) by (intros; apply replace_sep; [discriminate|reflexivity]).
      assert (E : forall x y, inf (x ++ String "}" y) = (inf x ++ String "}" (inf y))%string) by (intros; apply replace_sep; [discriminate|reflexivity]).
      change ("\chi^2_\nu = {" ++ a ++ mid ++ b ++ "}")%string with ("\chi^2_\nu = " ++ String "{" (a ++ String "}" (" \; \; \; \; \; \; \; \; \; \; \; \; \; \; \; \; \chi^2_{\nu;R} = {" ++ b ++ "}")))%string.
      rewrite S, E. change (" \; \; \; \; \; \; \; \; \; \; \; \; \; \; \; \; \chi^2_{\nu;R} = {" ++ b ++ "}")%string
        with (" \; \; \; \; \; \; \; \; \; \; \; \; \; \; \; \; \chi^2_{\nu;R} = " ++ String "{" (b ++ String "}" ""))%string. rewrite S, E, I1, I2. reflexivity.
    - discriminate.
    - apply (contains_char "p"); [reflexivity|]. rewrite !has_char_app, P1, P2 by (cbn; tauto). reflexivity.
    - rewrite !has_char_app, P1, P2 by (cbn; tauto). reflexivity.
    - set (mid := "} \; \; \; \; \; \; \; \; \; \; \; \; \; \; \; \; \chi^2_{\nu;R} = {"). clearbody mid.
      apply (brace_no_number "\chi^2_\nu" (replace " " "" (a ++ mid ++ b ++ "}"))); [reflexivity|]. rewrite (despace "\chi^2_\nu = {"). set (w := replace " " "" (a ++ _)). clearbody w.
      assert (E : replace " " "" "\chi^2_\nu = {" = "\chi^2_\nu={") by (vm_compute; reflexivity). rewrite E. reflexivity.
  Qed.
  Lemma slim_stats : map slim (stats_raw o r) = statistics o r.
  Proof.
    unfold stats_raw, statistics, npts_line. destruct (op_npts o), (rp_npts r) as [n|], (op_chisq o); cbn [map app];
      rewrite ?(proj1 (slim_npts _)), ?(proj1 slim_chisq); reflexivity.
  Qed.
  Lemma slim_parameter p : In p (rp_popt r) -> slim (popt_line p) = paper_parameter p.
  Proof.
    intros Hp. destruct HP as ((_ & HPo & _) & HN & _). destruct (HPo p Hp) as (Q & V & _). destruct (HN p Hp) as (N1 & N2).
    unfold slim. rewrite simplified by assumption. rewrite no_spaces by exact N1. rewrite final_math.
    - rewrite inf_math. unfold paper_parameter. f_equal.
      replace (fst p ++ " = " ++ paper_text (fst (snd p)))%string with (fst p ++ String " " ("=" ++ String " " (paper_text (fst (snd p)))))%string by reflexivity.
      assert (IS : forall a b, inf (a ++ String " " b) = (inf a ++ String " " (inf b))%string) by (intros; apply replace_sep; [discriminate|reflexivity]).
      rewrite !IS, inf_paper by exact V. rewrite (replace_none "inf" _ (fst p)) by (apply Q; cbn; tauto). reflexivity.
    - destruct (fst p); discriminate.
    - destruct Q as (_ & Q & _). rewrite !has_char_app, Q, paper_no by tauto. reflexivity.
  Qed.
  Lemma paper_whole : parameter_info o r = paragraphs o r (map math (split_on newline (rp_function r)) ++ map paper_parameter (rp_popt r)).
  Proof.
    destruct HP as (PR & HN & HF). pose proof PR as PR0. destruct PR as (HT & HPo & F1 & F2 & R1 & R2 & R3).
    unfold parameter_info. rewrite H2. rewrite andb_false_r, orb_true_r.
    set (info2 := if op_rsq o then _ else _).
    set (F := (map math (split_on newline (rp_function r)) ++ map paper_parameter (rp_popt r))%list).
    set (RS := if op_rsq o then [math ("R^2 = " ++ rp_rsq r)] else []).
    assert (RE : inf (final_line ("R^2 = " ++ rp_rsq r)) = math ("R^2 = " ++ rp_rsq r)).
    { rewrite final_math; [|discriminate|rewrite has_char_app, R2; reflexivity]. rewrite inf_math. f_equal.
      change ("R^2 = " ++ rp_rsq r)%string with ("R^2 =" ++ String " " (rp_rsq r))%string.
      assert (IS : forall a b, inf (a ++ String " " b) = (inf a ++ String " " (inf b))%string) by (intros; apply replace_sep; [discriminate|reflexivity]).
      rewrite IS, (replace_none "inf" _ _ R1). reflexivity. }
    assert (E2 : map (fun x => inf (final_line x)) info2 = (F ++ (match statistics o r with [] => [] | _ => nl :: statistics o r end) ++ RS)%list).
    { assert (G : map slim (raw_info o r) = (F ++ match statistics o r with [] => [] | _ => nl :: statistics o r end)%list).
      { rewrite (raw_shape o r H3), app_assoc, map_app. f_equal.
        - rewrite map_app, map_map. unfold F. f_equal; apply map_ext_in.
          + intros l Hl. destruct (HT l Hl) as [N Q]. rewrite slim_other; [|exact N|apply Q; cbn; tauto|apply Q|apply HF, Hl]. rewrite replace_none by (apply Q; cbn; tauto). reflexivity.
          + intros p Hp. apply slim_parameter, Hp.
        - rewrite <- slim_stats. destruct (stats_raw o r) as [|y l]; reflexivity. }
      unfold info2, RS. rewrite app_assoc, <- G. destruct (op_rsq o).
      - rewrite map_app, !map_map. cbn [map]. rewrite RE. reflexivity.
      - rewrite !map_map, app_nil_r. reflexivity. }
    assert (J : inf (join nl (map final_line info2)) = join nl (map (fun x => inf (final_line x)) info2)).
    { unfold nl. rewrite replace_join by (discriminate || reflexivity). rewrite map_map. reflexivity. }
    rewrite J, E2. rewrite assemble.
    - unfold paragraphs, RS. fold F. destruct (statistics o r), (op_rsq o); reflexivity.
    - unfold F. destruct (split_on newline (rp_function r)) eqn:X; [exfalso; exact (split_on_nonempty _ _ X)|discriminate].
    - intros x Hx. unfold F in Hx. apply in_app_or in Hx. destruct Hx as [Hx|Hx].
      + apply in_map_iff in Hx. destruct Hx as (l & <- & Hl). apply math_block. exact (split_on_free _ _ _ Hl).
      + apply in_map_iff in Hx. destruct Hx as (p & <- & Hp). destruct (HPo p Hp) as (Q & V & _). destruct Q as (_ & _ & Q & _). apply math_block.
        rewrite !has_char_app, Q. assert (X : has_char newline (infinite (fst (snd p))) = false) by (destruct (fst (snd p)) as [s| |neg]; [apply paper_no; tauto|reflexivity|destruct neg; reflexivity]).
        rewrite X. reflexivity.
    - intros x Hx. unfold statistics in Hx. apply in_app_or in Hx. destruct Hx as [X|X].
      + destruct (op_npts o), (rp_npts r) as [n|]; try contradiction. destruct X as [X|[]]. rewrite <- X. apply math_block. apply slim_npts.
      + destruct (op_chisq o); [|contradiction]. destruct X as [X|[]]. rewrite <- X. unfold shown_chisq. apply math_block.
        destruct (fixed_plain _ F1) as [P1 I1]. destruct (fixed_plain _ F2) as [P2 I2].
        assert (IN : forall t, has_char newline t = false -> has_char newline (infinity_sign t) = false) by (intros t Ht; unfold infinity_sign; destruct (String.eqb t "inf"); [reflexivity|exact Ht]).
        rewrite !has_char_app, !IN by ((apply P1 || apply P2); tauto). reflexivity.
    - unfold RS. destruct (op_rsq o); [|intros x []]. intros x [<-|[]]. apply math_block. rewrite has_char_app, R3. reflexivity.
  Qed.
End Paper.

(** The annotation for a paper: the formula, one line "name = text" for each parameter in their order, and the statistics as before. *)
Theorem C216_lines o r : paper_report r -> op_paper o = true -> op_rel o = false ->
  exists texts, List.length texts = List.length (rp_popt r)
    /\ parameter_info o r = paragraphs o r (map math (split_on newline (rp_function r)) ++ map (fun q => math (fst (fst q) ++ " = " ++ snd q)) (combine (rp_popt r) texts))
    /\ forall p t, In (p, t) (combine (rp_popt r) texts) -> match fst (snd p) with
       | Nan => t = "nan"
       | Inf neg => t = (if neg then "-\infty" else "\infty")
       | Dec s => positional (sc_exp s) -> denotes t (sci_value s)
       end.
Proof.
  intros HP H2 H3. exists (map (fun p => infinite (fst (snd p))) (rp_popt r)). split; [apply map_length|].
  assert (C : forall l : list (string * (num * num)), combine l (map (fun p => infinite (fst (snd p))) l) = map (fun p => (p, infinite (fst (snd p)))) l)
    by (induction l as [|p l IH]; [reflexivity|cbn; rewrite IH; reflexivity]).
  rewrite C. split; [rewrite map_map; apply (paper_whole o r HP H2 H3)|]. intros p t Hp. apply in_map_iff in Hp. destruct Hp as (q & EQ & Hq).
  assert (q = p) by congruence. subst q. assert (ET : t = infinite (fst (snd p))) by congruence. rewrite ET. clear ET EQ.
  destruct HP as ((_ & HPo & _) & _). destruct (HPo p Hq) as (_ & V & _). destruct (fst (snd p)) as [s| |neg]; [|reflexivity|destruct neg; reflexivity].
  intros PO. cbn [infinite]. apply positional_text; [apply V|exact PO].
Qed.
(** Numbers too large or too small for positional notation are shown faithfully if their exponent does not end in a zero. *)
Theorem C216_exponent_partial name v u o r : paper_report r -> op_paper o = true -> op_rel o = false -> op_chisq o = false -> op_npts o = false -> op_rsq o = false ->
  rp_popt r = [(name, (Dec v, u))] -> ~ (10 | sc_exp v)%Z \/ positional (sc_exp v) ->
  exists t, parameter_info o r = (join nl (map math (split_on newline (rp_function r))) ++ nl ++ math (name ++ " = " ++ t))%string /\ denotes t (sci_value v).
Proof.
  intros HP H2 H3 H4 H5 H6 EP HE. exists (paper_text (Dec v)). split.
  - rewrite (paper_whole o r HP H2 H3), EP. unfold paragraphs, statistics. rewrite H4, H5, H6. cbn [app append map]. rewrite sapp_nil_r. rewrite join_app; [reflexivity| |discriminate].
    destruct (split_on newline (rp_function r)) eqn:X; [exfalso; exact (split_on_nonempty _ _ X)|discriminate].
  - destruct HP as ((_ & HPo & _) & _). rewrite EP in HPo. destruct (HPo _ (or_introl eq_refl)) as (_ & V & _). cbn [fst snd] in V. destruct V as [V _].
    destruct (Z_le_gt_dec (-4) (sc_exp v)) as [A|A]; [destruct (Z_lt_ge_dec (sc_exp v) 16) as [B|B]|].
    + apply positional_text; [exact V|split; lia].
    + destruct HE as [HE|HE]; [|apply positional_text; [exact V|exact HE]].
      destruct (trim (sc_int v :: sc_frac v)) as [|d f] eqn:ET.
      * rewrite <- same_exponent, (value_zero _ _ ET). cbn [paper_text]. unfold repr_sci. rewrite ET. exists (sc_neg v), [0%nat], [], false, [].
        split; [intros x [<-|[]]; lia|]. split; [discriminate|]. split; [destruct (sc_neg v); reflexivity|]. unfold number, digits_value. cbn. ring.
      * destruct (exponent_text v V) as (e & j & E1 & E2 & E3); [unfold positional; lia|rewrite ET; discriminate|].
        destruct j as [|j]; [replace e with (sc_exp v) in E3 by (rewrite E1; cbn; lia); exact E3|]. exfalso. apply HE. rewrite E1, Nat2Z.inj_succ, Z.pow_succ_r by lia.
        exists (e * 10 ^ Z.of_nat j)%Z. ring.
    + destruct HE as [HE|HE]; [|apply positional_text; [exact V|exact HE]].
      destruct (trim (sc_int v :: sc_frac v)) as [|d f] eqn:ET.
      * rewrite <- same_exponent, (value_zero _ _ ET). cbn [paper_text]. unfold repr_sci. rewrite ET. exists (sc_neg v), [0%nat], [], false, [].
        split; [intros x [<-|[]]; lia|]. split; [discriminate|]. split; [destruct (sc_neg v); reflexivity|]. unfold number, digits_value. cbn. ring.
      * destruct (exponent_text v V) as (e & j & E1 & E2 & E3); [unfold positional; lia|rewrite ET; discriminate|].
        destruct j as [|j]; [replace e with (sc_exp v) in E3 by (rewrite E1; cbn; lia); exact E3|]. exfalso. apply HE. rewrite E1, Nat2Z.inj_succ, Z.pow_succ_r by lia.
        exists (e * 10 ^ Z.of_nat j)%Z. ring.
Qed.
Lemma value_pos l : digits l -> trim l <> [] -> (0 < digits_value l)%Z.
Proof.
  induction l as [|d l IH]; intros H N; [contradiction|]. change (d :: l) with ([d] ++ l)%list in *. rewrite value_app.
  assert (NN : forall k, (0 <= digits_value k)%Z).
  { intros k. unfold digits_value. assert (G : forall k a, (0 <= a)%Z -> (0 <= fold_left (fun a d => 10 * a + Z.of_nat d)%Z k a)%Z).
    { intros k0. induction k0 as [|x k0 IHk]; intros a A; [exact A|]. cbn [fold_left]. apply IHk. lia. }
    apply G. lia. }
  cbn [app trim] in N. change (digits_value [d]) with (10 * 0 + Z.of_nat d)%Z. pose proof (Z.pow_pos_nonneg 10 (Z.of_nat (List.length l)) ltac:(lia) ltac:(lia)) as PP. pose proof (NN l).
  destruct (trim l) as [|x t] eqn:E.
  - destruct (Nat.eqb_spec d 0); [contradiction|]. nia.
  - assert (0 < digits_value l)%Z by (apply IH; [intros y Y; apply H; right; exact Y|discriminate]). nia.
Qed.
(** If it ends in zeros these are dropped from the text, which then says another number: 1.5e-10 is shown as 1.5e-1. *)
Theorem C216_exponent_refuted name v u o r : paper_report r -> op_paper o = true -> op_rel o = false -> op_chisq o = false -> op_npts o = false -> op_rsq o = false ->
  rp_popt r = [(name, (Dec v, u))] -> (10 | sc_exp v)%Z -> ~ positional (sc_exp v) -> sc_int v <> 0%nat ->
  exists t e j, parameter_info o r = (join nl (map math (split_on newline (rp_function r))) ++ nl ++ math (name ++ " = " ++ t))%string
    /\ (0 < j)%nat /\ sc_exp v = (e * 10 ^ Z.of_nat j)%Z /\ denotes t (sci_value (with_exponent v e)) /\ ~ denotes t (sci_value v).
Proof.
  intros HP H2 H3 H4 H5 H6 EP HE NP NI. exists (paper_text (Dec v)).
  assert (V : digits (sc_int v :: sc_frac v)). { destruct HP as ((_ & HPo & _) & _). rewrite EP in HPo. destruct (HPo _ (or_introl eq_refl)) as (_ & V & _). cbn [fst snd] in V. apply V. }
  assert (NT : trim (sc_int v :: sc_frac v) <> []). { cbn [trim]. destruct (trim (sc_frac v)); [|discriminate]. destruct (Nat.eqb_spec (sc_int v) 0); [contradiction|discriminate]. }
  destruct (exponent_text v V NP NT) as (e & j & E1 & E2 & E3). exists e, j. split; [|split; [|split; [exact E1|split; [exact E3|]]]].
  - rewrite (paper_whole o r HP H2 H3), EP. unfold paragraphs, statistics. rewrite H4, H5, H6. cbn [app append map]. rewrite sapp_nil_r. rewrite join_app; [reflexivity| |discriminate].
    destruct (split_on newline (rp_function r)) eqn:X; [exfalso; exact (split_on_nonempty _ _ X)|discriminate].
  - destruct j as [|j]; [|lia]. exfalso. apply E2. rewrite E1 in HE. cbn in HE. rewrite Z.mul_1_r in HE. exact HE.
  - intros D. pose proof (denotes_unique _ _ _ E3 D) as EQ. rewrite <- (same_exponent v) in EQ. unfold sci_value, with_exponent, number in EQ. cbn [sc_neg sc_int sc_frac sc_exp] in EQ.
    assert (PV : (0 < IZR (digits_value (sc_int v :: sc_frac v)))%R) by (apply IZR_lt, value_pos; assumption).
    set (w := IZR (digits_value (sc_int v :: sc_frac v))) in *. set (L := Z.of_nat (List.length (sc_frac v))) in *.
    assert (E : powerRZ 10 (e - L) = powerRZ 10 (sc_exp v - L)).
    { destruct (sc_neg v); [apply (Rmult_eq_reg_l (-1 * w)); [exact EQ|nra]|apply (Rmult_eq_reg_l (1 * w)); [exact EQ|nra]]. }
    assert (EE : e = sc_exp v).
    { assert (MONO : forall a b, (a < b)%Z -> (powerRZ 10 a < powerRZ 10 b)%R).
      { intros a b AB. replace b with (a + Z.of_nat (S (Z.to_nat (b - a - 1))))%Z by lia. rewrite powerRZ_add by lra. rewrite <- pow_powerRZ.
        assert (0 < powerRZ 10 a)%R by (apply powerRZ_lt; lra). assert (1 < 10 ^ S (Z.to_nat (b - a - 1)))%R by (apply Rlt_pow_R1; [lra|lia]). nra. }
      destruct (Z.lt_trichotomy (e - L) (sc_exp v - L)) as [X|[X|X]]; [apply MONO in X; lra|lia|apply MONO in X; lra]. }
    apply E2. rewrite EE. exact HE.
Qed.

(** Such reports exist. *)
Definition example_report (v : sci) : report :=
  mkReport "f(x)=A \cdot x^b" [("A", (Dec v, Dec (mkSci false 3 [0] 0)))] "" (Some 12%nat) ("1.25", "inf") "0.99".
Lemma example_paper v : digits (sc_int v :: sc_frac v) -> (sc_int v = 0%nat -> sc_neg v = false) -> paper_report (example_report v).
Proof.
  intros D Z. split; [|split].
  - split; [|split; [|split; [|split; [|split; [|split]]]]].
    + intros l [<-|[]]. split; [discriminate|]. split; [|repeat split]. intros p Hp. cbn in Hp. repeat destruct Hp as [<-|Hp]; try contradiction; reflexivity.
    + intros p [<-|[]]. cbn [fst snd]. split; [split; [|repeat split]; intros p Hp; cbn in Hp; repeat destruct Hp as [<-|Hp]; try contradiction; reflexivity|].
      split; [split; assumption|]. split; [intros d Hd; cbn in Hd; repeat destruct Hd as [<-|Hd]; try contradiction; lia|discriminate].
    + right. right. cbn. unfold number_char. cbn. repeat split; try (left; split; [tauto|discriminate]); right; reflexivity.
    + left. reflexivity.
    + reflexivity.
    + reflexivity.
    + reflexivity.
  - intros p [<-|[]]. split; reflexivity.
  - intros l [<-|[]] a b k H. vm_compute in H. assert (b = "A\cdotx^b") by congruence. subst b. repeat split; try discriminate. exists "A"%char. split; reflexivity.
Qed.
Definition paper_options : options := mkOptions false false true false true false false.
Example C216_shown :
  parameter_info paper_options (example_report (mkSci true 1 [2; 5; 0] (-3))) = ("$ f(x)=A \cdot x^b $" ++ nl ++ "$ A = -0.00125 $")%string
  /\ parameter_info paper_options (example_report (mkSci false 1 [5] (-10))) = ("$ f(x)=A \cdot x^b $" ++ nl ++ "$ A = 1.5e-1 $")%string.
Proof. split; vm_compute; reflexivity. Qed.
(** The spaces in a name are dropped, too, so that a macro can run into what follows it. *)
Theorem C216_name_refuted :
  parameter_info paper_options (mkReport "f(x)=A" [("\Delta v", (Dec (mkSci false 1 [5] 0), Dec (mkSci false 3 [] (-1))))] "" None ("1.25", "1.25") "0.99")
  = ("$ f(x)=A $" ++ nl ++ "$ \Deltav = 1.5 $")%string.
Proof. vm_compute. reflexivity. Qed.
(** C215's hypotheses are met as well, with all statistics asked for. *)
Example C215_shown :
  let o := mkOptions true true true false false true false in let r := example_report (mkSci true 1 [2; 5; 0] (-3)) in
  plain_report r
  /\ parameter_info o r = ("$ f(x)=A \cdot x^b $" ++ nl ++ "$ A = -1.250 \times 10^{-3 }\pm 3.0 \times 10^{+0} $" ++ nl ++ nl
     ++ "$ N_\mathrm{pts} = {12} $" ++ nl ++ "$ \chi^2_\nu = {1.25} \; \; \; \; \; \; \; \; \; \; \; \; \; \; \; \; \chi^2_{\nu;R} = {\infty} $" ++ nl ++ "$ R^2 = 0.99 $")%string.
Proof.
  cbv zeta. split; [|vm_compute; reflexivity].
  assert (D : digits [1; 2; 5; 0]%nat) by (intros d Hd; cbn in Hd; repeat destruct Hd as [<-|Hd]; try contradiction; lia).
  assert (Z : sc_int (mkSci true 1 [2; 5; 0]%nat (-3)) = 0%nat -> sc_neg (mkSci true 1 [2; 5; 0]%nat (-3)) = false) by (cbn; discriminate).
  exact (proj1 (example_paper (mkSci true 1 [2; 5; 0]%nat (-3)) D Z)).
Qed.
