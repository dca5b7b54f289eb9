(** C173-C180: what the downloads of the activity indices make of the published tables, and the tables built from them. *)
From Coq Require Import Reals List String Bool Arith ZArith Lia Lra.
From Flocq Require Import Core.
From Verif Require Import Py PyStr Sort Num LabelTables Labels Solar Activity ActivityThms Tight1Thms Download.
Import ListNotations.
Open Scope list_scope.

(* ---------------------------------------------------------------- C173 *)
Lemma assoc_some (l : list (string * string)) k v : assoc k l = Some v -> In (k, v) l.
Proof. induction l as [|[a b] l IH]; cbn; [discriminate|]. destruct (String.eqb_spec a k) as [->|N]; [intro E; injection E as ->; auto|auto]. Qed.
Lemma assoc_missing (l : list (string * string)) k : assoc k l = None <-> ~ In k (map fst l).
Proof. induction l as [|[a b] l IH]; cbn; [tauto|]. destruct (String.eqb_spec a k) as [->|N]; [split; [discriminate|tauto]|]. rewrite IH. tauto. Qed.
Lemma set_key_cases b urls k : (exists e, In (k, e) urls /\ set_key b urls k = Ok (k, (b ++ e)%string)) \/ (~ In k (map fst urls) /\ set_key b urls k = Err NotImplementedError).
Proof.
  unfold set_key. destruct (assoc k urls) as [e|] eqn:E; [left; exists e; split; [apply assoc_some, E|reflexivity]|right; split; [apply assoc_missing, E|reflexivity]].
Qed.
(** The seven sunspot tables and the five LISIRD tables, by key; anything else is refused. *)
Theorem C173_keys : forall key,
  ((exists r, set_key sidc_base sidc_urls key = Ok r) <-> In key ["d"; "m"; "m13"; "y"; "hd"; "hm"; "hm13"]%string) /\
  ((exists r, set_key lisird_base lisird_urls key = Ok r) <-> In key ["Lalpha"; "CaK"; "f107-penticton"; "f107-noaa"; "MgII"]%string) /\
  (forall e, set_key sidc_base sidc_urls key = Err e \/ set_key lisird_base lisird_urls key = Err e -> e = NotImplementedError).
Proof.
  intro key. repeat split.
  - intros [r H]. destruct (set_key_cases sidc_base sidc_urls key) as [(e & I & _)|[_ E]]; [apply (in_map fst) in I; exact I|congruence].
  - intro I. destruct (set_key_cases sidc_base sidc_urls key) as [(e & _ & E)|[N _]]; [eauto|contradiction].
  - intros [r H]. destruct (set_key_cases lisird_base lisird_urls key) as [(e & I & _)|[_ E]]; [apply (in_map fst) in I; exact I|congruence].
  - intro I. destruct (set_key_cases lisird_base lisird_urls key) as [(e & _ & E)|[N _]]; [eauto|contradiction].
  - intros e [H|H]; [destruct (set_key_cases sidc_base sidc_urls key) as [(x & _ & E)|[_ E]]|destruct (set_key_cases lisird_base lisird_urls key) as [(x & _ & E)|[_ E]]]; congruence.
Qed.
(** Different keys never share a URL, and a table's URL is the published one. *)
Theorem C173_urls : forall k k' u u', set_key sidc_base sidc_urls k = Ok (k, u) \/ set_key lisird_base lisird_urls k = Ok (k, u) ->
  set_key sidc_base sidc_urls k' = Ok (k', u') \/ set_key lisird_base lisird_urls k' = Ok (k', u') -> u = u' -> k = k'.
Proof.
  assert (G : forall k u, set_key sidc_base sidc_urls k = Ok (k, u) \/ set_key lisird_base lisird_urls k = Ok (k, u) ->
    In (k, u) [("d", "http://www.sidc.be/silso/INFO/sndtotcsv.php"); ("m", "http://www.sidc.be/silso/INFO/snmtotcsv.php");
      ("m13", "http://www.sidc.be/silso/INFO/snmstotcsv.php"); ("y", "http://www.sidc.be/silso/INFO/snytotcsv.php");
      ("hd", "http://www.sidc.be/silso/INFO/sndhemcsv.php"); ("hm", "http://www.sidc.be/silso/INFO/snmhemcsv.php"); ("hm13", "http://www.sidc.be/silso/INFO/snmshemcsv.php");
      ("Lalpha", "http://lasp.colorado.edu/lisird/latis/dap/composite_lyman_alpha.jsond"); ("CaK", "http://lasp.colorado.edu/lisird/latis/dap/cak.jsond");
      ("f107-penticton", "http://lasp.colorado.edu/lisird/latis/dap/penticton_radio_flux.jsond"); ("f107-noaa", "http://lasp.colorado.edu/lisird/latis/dap/noaa_radio_flux.jsond");
      ("MgII", "http://lasp.colorado.edu/lisird/latis/dap/composite_mg_index.jsond")]%string).
  { intros k u [H|H]; [destruct (set_key_cases sidc_base sidc_urls k) as [(e & I & E)|[_ E]]|destruct (set_key_cases lisird_base lisird_urls k) as [(e & I & E)|[_ E]]];
      try congruence; rewrite E in H; injection H as <-; cbn [sidc_urls lisird_urls In] in I; repeat destruct I as [I|I]; try contradiction; injection I as <- <-;
      cbn [In]; repeat (first [left; reflexivity|right]). }
  intros k k' u u' H H' E. apply G in H, H'. subst u'. cbn [In] in H, H'.
  repeat destruct H as [H|H]; try contradiction; injection H as <- <-; repeat destruct H' as [H'|H']; try contradiction; injection H' as <- ; try reflexivity; discriminate.
Qed.

(* ---------------------------------------------------------------- C174 *)
Open Scope Z_scope.
Definition years (y : Z) : Z := 365 * y + y / 4 - y / 100 + y / 400.
Definition before_month (m : Z) : Z := (153 * ((m + 9) mod 12) + 2) / 5.
Lemma days_form y m d : days_from_civil y m d = years (if m <=? 2 then y - 1 else y) + before_month m + d - 719469.
Proof.
  unfold days_from_civil, years, before_month. set (y' := if m <=? 2 then y - 1 else y). set (b := (153 * ((m + 9) mod 12) + 2) / 5).
  assert (E4 : (y' - y' / 400 * 400) / 4 = y' / 4 - 100 * (y' / 400)).
  { replace (y' - y' / 400 * 400) with (y' + (- (y' / 400) * 100) * 4) by lia. rewrite Z.div_add by lia. lia. }
  assert (E100 : (y' - y' / 400 * 400) / 100 = y' / 100 - 4 * (y' / 400)).
  { replace (y' - y' / 400 * 400) with (y' + (- (y' / 400) * 4) * 100) by lia. rewrite Z.div_add by lia. lia. }
  rewrite E4, E100. lia.
Qed.
Lemma years_step y : years y = years (y - 1) + (if leap y then 366 else 365).
Proof.
  unfold years, leap.
  assert (S : forall k, 1 < k -> (y - 1) / k = if y mod k =? 0 then y / k - 1 else y / k).
  { intros k K. destruct (Z.eqb_spec (y mod k) 0) as [E|E].
    - assert (D := Z.div_mod y k ltac:(lia)). rewrite E in D. symmetry. apply Z.div_unique with (r := k - 1); lia.
    - assert (D := Z.div_mod y k ltac:(lia)). assert (B := Z.mod_pos_bound y k ltac:(lia)). symmetry. apply Z.div_unique with (r := y mod k - 1); lia. }
  rewrite !S by lia.
  assert (I1 : y mod 100 = 0 -> y mod 4 = 0). { intro H. apply Z.mod_divide in H; [|lia]. destruct H as [k ->]. replace (k * 100) with (k * 25 * 4) by lia. apply Z.mod_mul; lia. }
  assert (I2 : y mod 400 = 0 -> y mod 100 = 0). { intro H. apply Z.mod_divide in H; [|lia]. destruct H as [k ->]. replace (k * 400) with (k * 4 * 100) by lia. apply Z.mod_mul; lia. }
  destruct (Z.eqb_spec (y mod 4) 0), (Z.eqb_spec (y mod 100) 0), (Z.eqb_spec (y mod 400) 0); cbn [negb andb orb]; lia.
Qed.
Lemma months12 m : 1 <= m <= 12 -> In m (1 :: 2 :: 3 :: 4 :: 5 :: 6 :: 7 :: 8 :: 9 :: 10 :: 11 :: 12 :: nil).
Proof. intro. cbn. lia. Qed.
Lemma before_months : before_month 1 = 306 /\ before_month 2 = 337 /\ before_month 3 = 0 /\ before_month 4 = 31 /\ before_month 5 = 61 /\ before_month 6 = 92 /\
  before_month 7 = 122 /\ before_month 8 = 153 /\ before_month 9 = 184 /\ before_month 10 = 214 /\ before_month 11 = 245 /\ before_month 12 = 275.
Proof. repeat split. Qed.
Lemma next_month y m : 1 <= m < 12 -> days_from_civil y (m + 1) 1 = days_from_civil y m (month_days y m) + 1.
Proof.
  intro H. rewrite !days_form. assert (C := months12 m ltac:(lia)). cbn [In] in C. assert (Y := years_step y).
  destruct before_months as (B1 & B2 & B3 & B4 & B5 & B6 & B7 & B8 & B9 & B10 & B11 & B12).
  repeat destruct C as [<-|C]; try lia; cbn [Z.add Pos.add Pos.succ]; rewrite ?B1, ?B2, ?B3, ?B4, ?B5, ?B6, ?B7, ?B8, ?B9, ?B10, ?B11, ?B12;
    cbn [Z.leb Z.compare Pos.compare Pos.compare_cont]; unfold month_days; cbn [Z.eqb Pos.eqb orb]; destruct (leap y); lia.
Qed.
Lemma next_year y : days_from_civil (y + 1) 1 1 = days_from_civil y 12 31 + 1.
Proof.
  destruct before_months as (B1 & B2 & B3 & B4 & B5 & B6 & B7 & B8 & B9 & B10 & B11 & B12).
  rewrite !days_form, B1, B12. cbn [Z.leb Z.compare Pos.compare Pos.compare_cont]. replace (y + 1 - 1) with y by lia. lia.
Qed.

(** The calendar: day 0 is 1 January 1970, days of a month follow each other, months and years follow each other, with the Gregorian leap
    years. This determines the day of every date. *)
Definition gregorian_leap (y : Z) : Prop := ((4 | y) /\ ~ (100 | y)) \/ (400 | y).
Lemma leap_spec y : leap y = true <-> gregorian_leap y.
Proof.
  unfold leap, gregorian_leap. rewrite <- !Z.mod_divide by lia.
  destruct (Z.eqb_spec (y mod 4) 0), (Z.eqb_spec (y mod 100) 0), (Z.eqb_spec (y mod 400) 0); cbn; intuition discriminate.
Qed.
Theorem C174_calendar : days_from_civil 1970 1 1 = 0 /\
  (forall y m d, days_from_civil y m (d + 1) = days_from_civil y m d + 1) /\
  (forall y m n, (m, n) = (1, 31) \/ (m, n) = (2, 28) /\ ~ gregorian_leap y \/ (m, n) = (2, 29) /\ gregorian_leap y \/ (m, n) = (3, 31) \/ (m, n) = (4, 30) \/ (m, n) = (5, 31)
     \/ (m, n) = (6, 30) \/ (m, n) = (7, 31) \/ (m, n) = (8, 31) \/ (m, n) = (9, 30) \/ (m, n) = (10, 31) \/ (m, n) = (11, 30) ->
     days_from_civil y (m + 1) 1 = days_from_civil y m n + 1) /\
  (forall y, days_from_civil (y + 1) 1 1 = days_from_civil y 12 31 + 1).
Proof.
  split; [reflexivity|]. split; [intros; rewrite !days_form; lia|]. split; [|exact next_year].
  assert (N := next_month). unfold month_days in N. intros y m n H. assert (L := leap_spec y).
  repeat destruct H as [H|H]; try (injection H as -> ->; rewrite N by lia; reflexivity); destruct H as [H G]; injection H as -> ->; rewrite N by lia; cbn;
    [destruct (leap y); [exfalso; tauto|reflexivity]|rewrite (proj2 L G); reflexivity].
Qed.
(** times of valid dates are in the order of the dates *)
Lemma month_days_bounds y m : 28 <= month_days y m <= 31.
Proof. unfold month_days. destruct (m =? 2); [destruct (leap y); lia|]. destruct (_ || _); lia. Qed.
Lemma days_split y m d : days_from_civil y m d = days_from_civil y m 1 + (d - 1).
Proof. rewrite !days_form. lia. Qed.
Definition month_start (k : Z) : Z := days_from_civil (k / 12) (k mod 12 + 1) 1.
Lemma month_start_step k : month_start (k + 1) = month_start k + month_days (k / 12) (k mod 12 + 1).
Proof.
  unfold month_start. assert (D := Z.div_mod k 12 ltac:(lia)). assert (B := Z.mod_pos_bound k 12 ltac:(lia)).
  destruct (Z.eq_dec (k mod 12) 11) as [E|E].
  - assert (Q : (k + 1) / 12 = k / 12 + 1) by (symmetry; apply Z.div_unique with (r := 0); lia). assert (M : (k + 1) mod 12 = 0) by (symmetry; apply Z.mod_unique with (q := k / 12 + 1); lia).
    rewrite Q, M, E. change (0 + 1) with 1. change (11 + 1) with 12. rewrite next_year, (days_split _ 12 31). change (month_days (k / 12) 12) with 31. lia.
  - assert (Q : (k + 1) / 12 = k / 12) by (symmetry; apply Z.div_unique with (r := k mod 12 + 1); lia). assert (M : (k + 1) mod 12 = k mod 12 + 1) by (symmetry; apply Z.mod_unique with (q := k / 12); lia).
    rewrite Q, M, next_month by lia. rewrite days_split. lia.
Qed.
Lemma month_start_mono n : forall k, month_start k + 28 * Z.of_nat n <= month_start (k + Z.of_nat n).
Proof.
  induction n as [|n IH]; intro k; [change (Z.of_nat 0) with 0; replace (k + 0) with k by lia; lia|]. replace (k + Z.of_nat (S n)) with (k + Z.of_nat n + 1) by lia. rewrite month_start_step.
  specialize (IH k). assert (B := month_days_bounds ((k + Z.of_nat n) / 12) ((k + Z.of_nat n) mod 12 + 1)). lia.
Qed.
Lemma month_index y m : 1 <= m <= 12 -> days_from_civil y m 1 = month_start (12 * y + m - 1).
Proof.
  intro H. unfold month_start. replace ((12 * y + m - 1) / 12) with y by (apply Z.div_unique with (r := m - 1); lia).
  replace ((12 * y + m - 1) mod 12) with (m - 1) by (apply Z.mod_unique with (q := y); lia). f_equal. lia.
Qed.
Definition date_lt (a b : Z * Z * Z) : Prop :=
  let '(y, m, d) := a in let '(y', m', d') := b in y < y' \/ (y = y' /\ (m < m' \/ (m = m' /\ d < d'))).
Definition is_date (y m d : Z) : Prop := 1 <= m <= 12 /\ 1 <= d <= month_days y m.
Lemma days_increase y m d y' m' d' : is_date y m d -> is_date y' m' d' -> date_lt (y, m, d) (y', m', d') -> days_from_civil y m d < days_from_civil y' m' d'.
Proof.
  intros [M D] [M' D'] L. rewrite (days_split y m d), (days_split y' m' d'), (month_index y m M), (month_index y' m' M').
  assert (C : (y = y' /\ m = m' /\ d < d') \/ 12 * y + m < 12 * y' + m') by (cbn in L; lia).
  destruct C as [(-> & -> & C)|C]; [lia|]. set (k := 12 * y + m - 1). set (k' := 12 * y' + m' - 1).
  assert (E : month_start (k + 1) <= month_start k').
  { assert (H := month_start_mono (Z.to_nat (k' - (k + 1))) (k + 1)). rewrite Z2Nat.id in H by lia. replace (k + 1 + (k' - (k + 1))) with k' in H by lia. lia. }
  rewrite month_start_step in E. unfold k in E. replace ((12 * y + m - 1) / 12) with y in E by (apply Z.div_unique with (r := m - 1); lia).
  replace ((12 * y + m - 1) mod 12 + 1) with m in E by (replace ((12 * y + m - 1) mod 12) with (m - 1) by (apply Z.mod_unique with (q := y); lia); lia). unfold k. lia.
Qed.
Lemma valid_date_spec y m d : valid_date y m d = true <-> is_date y m d.
Proof. unfold valid_date, is_date. rewrite !andb_true_iff, !Z.leb_le. tauto. Qed.
Definition monthly (key : string) : Prop := In key ["m"; "m13"; "hm"; "hm13"]%string.
Definition daily (key : string) : Prop := In key ["d"; "hd"]%string.
(** the time of a row: the midnight that starts the day, monthly tables being dated on the first *)
Theorem C174_time_of_row : forall {T} {A : Arith T} (decimal : T -> Z) key (r : raw (T := T)),
  (monthly key -> row_time decimal key r = if valid_date (rw_y r) (rw_m r) 1 then Ok (days_from_civil (rw_y r) (rw_m r) 1 * 86400000000000) else Err ValueError) /\
  (daily key -> row_time decimal key r = if valid_date (rw_y r) (rw_m r) (rw_d r) then Ok (days_from_civil (rw_y r) (rw_m r) (rw_d r) * 86400000000000) else Err ValueError) /\
  (key = "y"%string -> row_time decimal key r = Ok (decimal (rw_v r "year"%string))).
Proof.
  intros T A decimal key r. unfold monthly, daily. cbn [In]. repeat split; intro H; repeat destruct H as [H|H]; try contradiction; subst key; reflexivity.
Qed.
Theorem C174_times_in_order : forall {T} {A : Arith T} (decimal : T -> Z) key (r r' : raw (T := T)) t t',
  row_time decimal key r = Ok t -> row_time decimal key r' = Ok t' ->
  (monthly key -> date_lt (rw_y r, rw_m r, 1) (rw_y r', rw_m r', 1) -> t < t') /\
  (daily key -> date_lt (rw_y r, rw_m r, rw_d r) (rw_y r', rw_m r', rw_d r') -> t < t').
Proof.
  intros T A decimal key r r' t t' H H'. destruct (C174_time_of_row decimal key r) as (M & D & _). destruct (C174_time_of_row decimal key r') as (M' & D' & _).
  split; intro K; [rewrite (M K) in H; rewrite (M' K) in H'|rewrite (D K) in H; rewrite (D' K) in H'];
    (destruct (valid_date _ _ _) eqn:V in H; [|discriminate]); (destruct (valid_date _ _ _) eqn:V' in H'; [|discriminate]);
    injection H as <-; injection H' as <-; intro L; apply valid_date_spec in V, V'; assert (I := days_increase _ _ _ _ _ _ V V' L); lia.
Qed.
Example C174_ex : days_from_civil 2000 2 29 + 1 = days_from_civil 2000 3 1 /\ days_from_civil 1900 2 28 + 1 = days_from_civil 1900 3 1 /\ days_from_civil 2024 1 1 = 19723.
Proof. repeat split. Qed.
Close Scope Z_scope.

(* ---------------------------------------------------------------- C175 *)
Definition minus1 : XR := Fin (-1).
(** Specification: what the user's table shows of a published number *)
Definition shown (x : XR) : XR := if Req_EM_T (match x with Fin r => r | _ => 0 end) (-1) then match x with Fin _ => NaN | _ => x end else x.
Lemma minus1_shown x : minus1_nan x = shown x.
Proof.
  unfold minus1_nan, shown. rewrite fin_ofZ. destruct x as [r| | |]; try (destruct (Req_EM_T _ _); reflexivity).
  rewrite fin_eqb. unfold Reqb. destruct (Req_EM_T r (-1)); reflexivity.
Qed.
Definition own_columns (key : string) (cols : list string) : Prop := columns_of key sidc_columns = Some cols.
Lemma combine_map_fst {X Y} (xs : list X) : forall ys : list Y, List.length xs = List.length ys -> map snd (combine xs ys) = ys.
Proof. induction xs as [|x xs IH]; intros [|y ys] L; try discriminate; [reflexivity|]. cbn. rewrite IH by (injection L; auto). reflexivity. Qed.
Lemma forall2_length' {X Y} (P : X -> Y -> Prop) xs : forall ys, Forall2 P xs ys -> List.length xs = List.length ys.
Proof. induction 1; cbn; congruence. Qed.
Lemma forall2_combine {X Y} (P : X -> Y -> Prop) xs ys : Forall2 P xs ys -> forall x y, In (y, x) (combine ys xs) -> P x y.
Proof. induction 1 as [|x y xs ys H HS IH]; intros a b I; [contradiction|]. destruct I as [E|I]; [injection E as <- <-; exact H|exact (IH a b I)]. Qed.
(** Every published number is kept in its row, -1 is shown as missing, and each row is dated by its date. *)
Theorem C175_rows : forall decimal key (rows : list (raw (T := XR))) tb, download_sidc decimal key rows = Ok tb ->
  Forall2 (fun r t => row_time decimal key r = Ok (t_time t) /\
     forall c, ~ In c ["std_error"; "totalstd_error"; "northstd_error"; "southstd_error"]%string -> t_v t c = shown (rw_v r c)) rows (tb_rows tb).
Proof.
  intros decimal key rows tb H. unfold download_sidc in H. destruct (columns_of key sidc_columns); [|discriminate].
  apply bind_ok in H as (ts & E & H). apply mapM_ok in E. injection H as <-. cbn [tb_rows].
  induction E as [|r t rows ts H HS IH]; [constructor|]. cbn [combine map fst snd]. constructor; [|exact IH]. split; [exact H|].
  intros c N. cbn [t_v]. rewrite minus1_shown. f_equal. unfold with_errors. cbn [In] in N.
  destruct (String.prefix "h" key); [destruct (String.eqb_spec c "totalstd_error"); [exfalso; intuition congruence|]; destruct (String.eqb_spec c "northstd_error"); [exfalso; intuition congruence|];
    destruct (String.eqb_spec c "southstd_error"); [exfalso; intuition congruence|reflexivity]|destruct (String.eqb_spec c "std_error"); [exfalso; intuition congruence|reflexivity]].
Qed.
(** Where spread and number of observations were published, the standard error is the spread over the square root of the number. *)
Theorem C175_standard_error : forall decimal key (rows : list (raw (T := XR))) tb i r t, download_sidc decimal key rows = Ok tb ->
  nth_error rows i = Some r -> nth_error (tb_rows tb) i = Some t ->
  forall err std n, In (err, std, n) (if String.prefix "h" key then [("totalstd_error", "total_std", "n_total"); ("northstd_error", "north_std", "n_north"); ("southstd_error", "south_std", "n_south")]
                                       else [("std_error", "std", "n_obs")])%string ->
  forall s k, rw_v r std = Fin s -> rw_v r n = Fin k -> (0 <= s)%R -> (0 < k)%R -> t_v t err = Fin (s / sqrt k).
Proof.
  intros decimal key rows tb i r t H Hr Ht err std n I s k Es Ek S K.
  assert (E : t_v t err = minus1_nan (with_errors key (rw_v r) err)).
  { unfold download_sidc in H. destruct (columns_of key sidc_columns); [|discriminate]. apply bind_ok in H as (ts & E & H). apply mapM_ok in E. injection H as <-. cbn [tb_rows] in Ht.
    clear - E Hr Ht. revert i Hr Ht. induction E as [|r' t' rows ts H HS IH]; intros [|i] Hr Ht; try discriminate; cbn in Hr, Ht; [injection Hr as ->; injection Ht as <-; reflexivity|].
    exact (IH i Hr Ht). }
  assert (W : with_errors key (rw_v r) err = adiv (rw_v r std) (asqrt (rw_v r n))).
  { unfold with_errors. destruct (String.prefix "h" key); cbn [In] in I; repeat destruct I as [I|I]; try contradiction; injection I as <- <- <-; reflexivity. }
  assert (Q : (0 < sqrt k)%R) by (apply sqrt_lt_R0, K).
  rewrite E, W, Es, Ek, fin_sqrt by lra. assert (Q' : sqrt k <> 0%R) by lra. rewrite (fin_div s (sqrt k) Q'), minus1_shown. unfold shown.
  destruct (Req_EM_T (s / sqrt k) (-1)) as [F|_]; [exfalso|reflexivity].
  assert (P : (0 <= s / sqrt k)%R) by (apply Rmult_le_pos; [exact S|left; apply Rinv_0_lt_compat, Q]). lra.
Qed.
(** The columns of a table: the published ones and the standard errors. *)
Theorem C175_columns : forall decimal key (rows : list (raw (T := XR))) tb cols, download_sidc decimal key rows = Ok tb -> own_columns key cols ->
  forall c, In c (tb_cols tb) <-> In c cols \/ In c (if String.prefix "h" key then ["totalstd_error"; "northstd_error"; "southstd_error"] else ["std_error"])%string.
Proof.
  intros decimal key rows tb cols H O c. unfold download_sidc, own_columns in *. rewrite O in H. apply bind_ok in H as (ts & E & H). injection H as <-. cbn [tb_cols].
  destruct (String.prefix "h" key); [rewrite in_app_iff; tauto|]. rewrite sort_In, in_app_iff. tauto.
Qed.
(** Indicators can be made of the four total tables ... *)
Theorem C175_total_tables_work : forall decimal key (rows : list (raw (T := XR))), In key ["d"; "m"; "m13"; "y"]%string ->
  (forall r, In r rows -> exists t, row_time decimal key r = Ok t) -> exists tb, sidc decimal key rows = Ok tb /\ In "ssn"%string (tb_cols tb).
Proof.
  intros decimal key rows K V. assert (M : exists ts, mapM (row_time decimal key) rows = Ok ts).
  { clear K. induction rows as [|r rows IH]; [exists []; reflexivity|]. destruct (V r (or_introl eq_refl)) as [t E]. destruct IH as [ts E']; [intros x I; apply V; right; exact I|].
    exists (t :: ts). cbn [mapM]. rewrite E, E'. reflexivity. }
  destruct M as [ts M]. unfold sidc, download_sidc. cbn [In] in K. repeat destruct K as [K|K]; try contradiction; subst key; cbn [set_key assoc sidc_urls String.eqb Ascii.eqb Bool.eqb bind columns_of sidc_columns String.prefix];
    rewrite M; cbn [bind tb_cols]; (eexists; split; [reflexivity|vm_compute; tauto]).
Qed.
(** Refuted: ... and of the three hemispheric ones: the constructor needs a column "ssn". *)
Theorem C175_hemispheric_refuted : forall decimal key (rows : list (raw (T := XR))), In key ["hd"; "hm"; "hm13"]%string ->
  (forall r, In r rows -> exists t, row_time decimal key r = Ok t) -> sidc decimal key rows = Err KeyError.
Proof.
  intros decimal key rows K V. assert (M : exists ts, mapM (row_time decimal key) rows = Ok ts).
  { clear K. induction rows as [|r rows IH]; [exists []; reflexivity|]. destruct (V r (or_introl eq_refl)) as [t E]. destruct IH as [ts E']; [intros x I; apply V; right; exact I|].
    exists (t :: ts). cbn [mapM]. rewrite E, E'. reflexivity. }
  destruct M as [ts M]. unfold sidc, download_sidc. cbn [In] in K. repeat destruct K as [K|K]; try contradiction; subst key; cbn [set_key assoc sidc_urls String.eqb Ascii.eqb Bool.eqb bind columns_of sidc_columns String.prefix];
    rewrite M; reflexivity.
Qed.
(** Refuted: "the standard error of a missing spread is missing": it is computed before -1 is replaced; without observations it is minus infinity. *)
Theorem C175_missing_error_refuted : exists decimal (r : raw (T := XR)) tb t, download_sidc decimal "d" [r] = Ok tb /\ tb_rows tb = [t] /\
  t_v t "ssn"%string = NaN /\ t_v t "std"%string = NaN /\ t_v t "std_error"%string = MInf.
Proof.
  exists (fun _ => 0%Z), (mkraw 1818 1 2 (fun c => if String.eqb c "n_obs" then Fin 0 else Fin (-1))). eexists _, _.
  split; [reflexivity|]. split; [reflexivity|]. cbn [t_v].
  split; [|split]; rewrite minus1_shown.
  - unfold shown, with_errors. cbn. destruct (Req_EM_T (-1) (-1)); [reflexivity|lra].
  - unfold shown, with_errors. cbn. destruct (Req_EM_T (-1) (-1)); [reflexivity|lra].
  - unfold with_errors. cbn [String.prefix String.eqb Ascii.eqb Bool.eqb rw_v snd]. cbn. rewrite fin_sqrt by lra. rewrite sqrt_0.
    change (adiv (Fin (-1)) (Fin 0)) with (xdiv (Fin (-1)) (Fin 0)). unfold xdiv, inf_sign, Reqb, Rltb.
    destruct (Req_EM_T 0 0); [|lra]. destruct (Rlt_dec 0 (-1)); [lra|]. destruct (Rlt_dec (-1) 0); [|lra]. unfold shown. destruct (Req_EM_T 0 (-1)); [lra|reflexivity].
Qed.

(* ---------------------------------------------------------------- C176 *)
(** The missing values of Lyman alpha become NaN, all other numbers stay; the other tables are left alone. *)
Definition published_missing (key : string) (mv0 mv1 : option XR) : option (option R) :=
  if String.eqb key "Lalpha" then match mv0, mv1 with Some (Fin a), Some (Fin b) => if Req_EM_T a b then Some (Some a) else None | _, _ => None end
  else if mem_str key ["CaK"; "MgII"; "f107-noaa"; "f107-penticton"]%string then Some None else None.
Definition unmarked (m : option R) (x : XR) : XR := match m, x with Some a, Fin b => if Req_EM_T a b then NaN else x | _, _ => x end.
Lemma to_nan_unmarked m x : to_nan (option_map Fin m) x = unmarked m x.
Proof.
  destruct m as [a|]; [|destruct x; reflexivity]. cbn [to_nan unmarked option_map]. destruct x as [b| | |]; try reflexivity. rewrite fin_eqb. unfold Reqb.
  destruct (Req_EM_T b a), (Req_EM_T a b); first [reflexivity|congruence].
Qed.
Lemma first_of_each_in (r : lrow (T := XR)) rows : forall seen, In r (first_of_each seen rows) -> In r rows.
Proof. induction rows as [|x rows IH]; intros seen I; [contradiction|]. cbn [first_of_each] in I. destruct (existsb _ _); [right; exact (IH _ I)|]. destruct I as [->|I]; [left; reflexivity|right; exact (IH _ I)]. Qed.
Lemma verify_in key (r : lrow (T := XR)) rows : In r (verify_epoch key rows) -> In r rows.
Proof. unfold verify_epoch. destruct (String.eqb _ _); intro I; [apply filter_In in I as [I _]|]; exact (first_of_each_in _ _ _ I). Qed.
Theorem C176_missing_values : forall key mv0 mv1 m recs, published_missing key mv0 mv1 = Some m ->
  exists rows, download_lisird key mv0 mv1 recs = Ok rows /\
  forall row, In row rows -> exists r, In r recs /\ l_t row = lr_ms r /\ forall c, l_v row c = unmarked m (lr_v r c).
Proof.
  intros key mv0 mv1 m recs H.
  assert (M : lisird_missing key mv0 mv1 = Ok (option_map Fin m)).
  { unfold published_missing in H. unfold lisird_missing. destruct (String.eqb_spec key "Lalpha") as [->|N].
    - cbn [mem_str existsb String.eqb Ascii.eqb Bool.eqb orb]. destruct mv0 as [[a| | |]|]; try discriminate. destruct mv1 as [[b| | |]|]; try discriminate.
      destruct (Req_EM_T a b) as [->|]; [|discriminate]. injection H as <-. rewrite fin_eqb. unfold Reqb. destruct (Req_EM_T b b); [reflexivity|congruence].
    - destruct (mem_str key _); [|discriminate]. injection H as <-. reflexivity. }
  unfold download_lisird. rewrite M. cbn [bind]. eexists. split; [reflexivity|]. intros row I. apply verify_in, in_map_iff in I as (r & <- & I).
  exists r. split; [exact I|]. cbn [l_t l_v]. split; [reflexivity|]. intro c. apply to_nan_unmarked.
Qed.
(** Tables that were never inspected, or different marks for missing values, are refused. *)
Theorem C176_refusals : forall key mv0 mv1 recs,
  (~ In key ["CaK"; "MgII"; "f107-noaa"; "f107-penticton"; "Lalpha"]%string -> download_lisird (T := XR) key mv0 mv1 recs = Err NotImplementedError) /\
  (forall a b, a <> b -> download_lisird "Lalpha" (Some (Fin a)) (Some (Fin b)) recs = Err NotImplementedError).
Proof.
  intros key mv0 mv1 recs. split.
  - intro N. unfold download_lisird, lisird_missing. destruct (mem_str key _) eqn:E; [exfalso; apply N; apply mem_str_In in E; cbn in E |- *; tauto|].
    destruct (String.eqb_spec key "Lalpha"); [exfalso; apply N; cbn; auto 8|reflexivity].
  - intros a b N. unfold download_lisird, lisird_missing. cbn [mem_str existsb String.eqb Ascii.eqb Bool.eqb orb]. rewrite fin_eqb. unfold Reqb. destruct (Req_EM_T a b); [congruence|reflexivity].
Qed.
(** Refuted: "missing values may be marked by NaN": NaN is not equal to itself, so the download is refused. *)
Theorem C176_nan_mark_refuted : forall recs, download_lisird "Lalpha" (Some NaN) (Some NaN) recs = Err NotImplementedError.
Proof. reflexivity. Qed.
(** Refuted: "times are never taken for missing values": the mark is looked for in the column of milliseconds too. *)
Theorem C176_times_untouched_refuted : exists recs rows row, download_lisird "Lalpha" (Some (Fin 0)) (Some (Fin 0)) recs = Ok rows /\ In row rows /\ l_t row = 0%Z /\ l_ms row = NaN.
Proof.
  exists [mklrec 0 (fun _ => Fin 1)]. eexists _, _. unfold download_lisird, lisird_missing. cbn [mem_str existsb String.eqb Ascii.eqb Bool.eqb orb]. rewrite fin_eqb. unfold Reqb.
  destruct (Req_EM_T 0 0) as [_|]; [|congruence]. cbn [bind]. split; [reflexivity|]. split; [left; reflexivity|]. split; [reflexivity|].
  cbn [l_ms lr_ms to_nan]. rewrite fin_ofZ, fin_eqb. unfold Reqb. destruct (Req_EM_T 0 0); [reflexivity|congruence].
Qed.

(* ---------------------------------------------------------------- C177 *)
Inductive sublist {X} : list X -> list X -> Prop :=
| sub_nil l : sublist [] l
| sub_skip a x l : sublist a l -> sublist a (x :: l)
| sub_keep x a l : sublist a l -> sublist (x :: a) (x :: l).
Definition removed (key : string) (ms : Z) : Prop := key = "f107-penticton"%string /\ In ms [1061657971200; 1277073820800; 1568685597120]%Z.
Definition keyed (rows : list (lrow (T := XR))) : Prop := Forall (fun r => l_ms r = Fin (IZR (l_t r))) rows.
Lemma same_ms_Z a b : same_ms (Fin (IZR a)) (Fin (IZR b)) = Z.eqb a b.
Proof. unfold same_ms. rewrite fin_eqb, !fin_isnan, orb_false_r. unfold Reqb. destruct (Req_EM_T _ _) as [E|E], (Z.eqb_spec a b) as [F|F]; try reflexivity; [apply eq_IZR in E; congruence|congruence]. Qed.
Lemma seen_Z t seen : existsb (same_ms (Fin (IZR t))) (map (fun z => Fin (IZR z)) seen) = existsb (Z.eqb t) seen.
Proof. induction seen as [|z seen IH]; [reflexivity|]. cbn [map existsb]. rewrite same_ms_Z, IH. reflexivity. Qed.
Lemma existsb_Zeqb t l : existsb (Z.eqb t) l = true <-> In t l.
Proof. rewrite existsb_exists. split; [intros (x & I & E); apply Z.eqb_eq in E; congruence|intro I; exists t; rewrite Z.eqb_refl; auto]. Qed.
Lemma first_of_each_spec rows : keyed rows -> forall seen,
  let out := first_of_each (map (fun z => Fin (IZR z)) seen) rows in
  NoDup (map l_t out) /\ sublist out rows /\ (forall r, In r out <-> ~ In (l_t r) seen /\ find (fun x => Z.eqb (l_t x) (l_t r)) rows = Some r).
Proof.
  induction 1 as [|x rows Hx HS IH]; intros seen; cbv zeta; cbn [first_of_each].
  - split; [constructor|]. split; [constructor|]. intro r. cbn. split; [intros []|intros [_ Q]; discriminate].
  - rewrite Hx, seen_Z. destruct (existsb (Z.eqb (l_t x)) seen) eqn:E.
    + apply (existsb_Zeqb (l_t x) seen) in E. destruct (IH seen) as (N & S & F). split; [exact N|]. split; [apply sub_skip; exact S|]. intro r. cbn [find].
      assert (G : ~ In (l_t r) seen -> Z.eqb (l_t x) (l_t r) = false) by (intro Q; apply Z.eqb_neq; congruence). split.
      * intro H. apply F in H as [H1 H2]. rewrite (G H1). auto.
      * intros [H1 H2]. rewrite (G H1) in H2. apply F. auto.
    + change (Fin (IZR (l_t x)) :: map (fun z => Fin (IZR z)) seen) with (map (fun z => Fin (IZR z)) (l_t x :: seen)). destruct (IH (l_t x :: seen)) as (N & S & F).
      assert (E' : ~ In (l_t x) seen) by (intro I; apply existsb_Zeqb in I; congruence). split; [|split; [apply sub_keep, S|]].
      * cbn [map]. constructor; [|exact N]. intro I. apply in_map_iff in I as (r & G & I). apply F in I as [I _]. apply I. left. congruence.
      * intro r. cbn [find]. split.
        -- intros [<-|H]; [rewrite Z.eqb_refl; auto|]. apply F in H as [H1 H2]. destruct (Z.eqb_spec (l_t x) (l_t r)) as [G|G]; [exfalso; apply H1; left; exact G|].
           split; [intro I; apply H1; right; exact I|exact H2].
        -- intros [H1 H2]. destruct (Z.eqb_spec (l_t x) (l_t r)) as [G|G]; [left; congruence|]. right. apply F. split; [|exact H2]. intros [I|I]; contradiction.
Qed.
Lemma sublist_filter {X} (f : X -> bool) a : forall l, sublist a l -> sublist (filter f a) l.
Proof. induction 1 as [l|a x l H IH|x a l H IH]; cbn [filter]; [constructor|constructor; exact IH|destruct (f x); constructor; exact IH]. Qed.
Lemma sublist_map {X Y} (f : X -> Y) a l : sublist a l -> sublist (map f a) (map f l).
Proof. induction 1; cbn [map]; constructor; assumption. Qed.
Lemma NoDup_map_filter {X Y} (f : X -> Y) g l : NoDup (map f l) -> NoDup (map f (filter g l)).
Proof.
  induction l as [|x l IH]; [constructor|]. cbn [map filter]. intro H. inversion H as [|? ? N D]; subst. destruct (g x); [|exact (IH D)]. cbn [map]. constructor; [|exact (IH D)].
  intro I. apply N. apply in_map_iff in I as (y & E & I). apply filter_In in I as [I _]. rewrite <- E. apply in_map, I.
Qed.
Lemma find_map {X Y} (f : X -> Y) p l : find p (map f l) = option_map f (find (fun x => p (f x)) l).
Proof. induction l as [|x l IH]; [reflexivity|]. cbn [map find]. destruct (p (f x)); [reflexivity|exact IH]. Qed.
(** Every published time is kept exactly once, with the values of its first record and in the published order; only three times of one
    table are left out. ([m]: the published mark for missing values, which must not be one of the times.) *)
Theorem C177_one_row_per_time : forall key mv0 mv1 m recs rows, published_missing key mv0 mv1 = Some m ->
  (forall a r, m = Some a -> In r recs -> IZR (lr_ms r) <> a) -> download_lisird key mv0 mv1 recs = Ok rows ->
  NoDup (map l_t rows) /\ sublist (map l_t rows) (map lr_ms recs) /\
  (forall t, In t (map l_t rows) <-> In t (map lr_ms recs) /\ ~ removed key t) /\
  (forall row, In row rows -> exists r, find (fun r => Z.eqb (lr_ms r) (l_t row)) recs = Some r /\ forall c, l_v row c = unmarked m (lr_v r c)).
Proof.
  intros key mv0 mv1 m recs rows H K D.
  assert (M : lisird_missing key mv0 mv1 = Ok (option_map Fin m)).
  { unfold published_missing in H. unfold lisird_missing. destruct (String.eqb_spec key "Lalpha") as [->|N].
    - cbn [mem_str existsb String.eqb Ascii.eqb Bool.eqb orb]. destruct mv0 as [[a| | |]|]; try discriminate. destruct mv1 as [[b| | |]|]; try discriminate.
      destruct (Req_EM_T a b) as [->|]; [|discriminate]. injection H as <-. rewrite fin_eqb. unfold Reqb. destruct (Req_EM_T b b); [reflexivity|congruence].
    - destruct (mem_str key _); [|discriminate]. injection H as <-. reflexivity. }
  unfold download_lisird in D. rewrite M in D. cbn [bind] in D. set (mk := fun r => mklrow (lr_ms r) (to_nan (option_map Fin m) (aofZ (lr_ms r))) (fun c => to_nan (option_map Fin m) (lr_v r c))) in *.
  assert (D' : rows = verify_epoch key (map mk recs)) by congruence. clear D H M. subst rows.
  assert (Y : keyed (map mk recs)).
  { unfold keyed. rewrite Forall_map. apply Forall_forall. intros r I. unfold mk. cbn [l_ms l_t]. rewrite to_nan_unmarked, fin_ofZ. destruct m as [a|]; [|reflexivity].
    cbn [unmarked]. destruct (Req_EM_T a (IZR (lr_ms r))) as [E|_]; [exfalso; exact (K a r eq_refl I (eq_sym E))|reflexivity]. }
  destruct (first_of_each_spec _ Y []) as (N & S & F). cbn [map] in N, S, F.
  assert (T : map l_t (map mk recs) = map lr_ms recs) by (rewrite map_map; reflexivity).
  assert (W : forall t, In t (map l_t (first_of_each [] (map mk recs))) <-> In t (map lr_ms recs)).
  { intro t. split.
    - intro I. rewrite <- T. apply in_map_iff in I as (r & <- & I). apply in_map. exact (first_of_each_in _ _ _ I).
    - intro I. rewrite <- T in I. apply in_map_iff in I as (r & E & I).
      destruct (find (fun x => Z.eqb (l_t x) t) (map mk recs)) as [q|] eqn:Q; [|exfalso; apply (find_none _ _ Q) in I; rewrite E, Z.eqb_refl in I; discriminate].
      assert (Et : l_t q = t) by (apply find_some in Q as [_ Q]; apply Z.eqb_eq, Q). rewrite <- Et. apply in_map. apply F. split; [intros []|]. rewrite Et. exact Q. }
  assert (V : forall row, In row (first_of_each [] (map mk recs)) -> exists r, find (fun r => Z.eqb (lr_ms r) (l_t row)) recs = Some r /\ forall c, l_v row c = unmarked m (lr_v r c)).
  { intros row I. apply F in I as [_ I]. rewrite find_map in I. cbn [l_t mk] in I. destruct (find _ recs) as [r|] eqn:Q; [|discriminate]. apply (f_equal (fun o => match o with Some x => x | None => row end)) in I. cbn [option_map] in I.
    exists r. split; [reflexivity|]. intro c. rewrite <- I. cbn [l_v mk]. apply to_nan_unmarked. }
  unfold verify_epoch. destruct (String.eqb_spec key "f107-penticton") as [->|P].
  - assert (B : forall r, In r (first_of_each [] (map mk recs)) -> existsb (fun b => aeqb (l_ms r) (aofZ b)) bad_stamps = true <-> removed "f107-penticton" (l_t r)).
    { intros r I. apply first_of_each_in in I. assert (E : l_ms r = Fin (IZR (l_t r))) by (exact (proj1 (Forall_forall _ _) Y r I)). rewrite E, existsb_exists. unfold removed. split.
      - intros (b & J & Q). rewrite fin_ofZ, fin_eqb in Q. unfold Reqb in Q. destruct (Req_EM_T _ _) as [Q'|]; [|discriminate]. apply eq_IZR in Q'. rewrite Q'. split; [reflexivity|exact J].
      - intros [_ J]. exists (l_t r). split; [exact J|]. rewrite fin_ofZ, fin_eqb. unfold Reqb. destruct (Req_EM_T _ _); congruence. }
    set (keep := fun r => negb _). repeat split.
    + apply NoDup_map_filter, N.
    + rewrite <- T. apply sublist_map, sublist_filter, S.
    + apply W. apply in_map_iff in H as (r & <- & I). apply filter_In in I as [I _]. apply in_map, I.
    + intro R. apply in_map_iff in H as (r & <- & I). apply filter_In in I as [I Q]. apply (proj2 (B r I)) in R. unfold keep in Q. rewrite R in Q. discriminate.
    + intros [I R]. apply W in I. apply in_map_iff in I as (r & <- & I). apply in_map. apply filter_In. split; [exact I|]. unfold keep.
      destruct (existsb _ bad_stamps) eqn:Q; [|reflexivity]. exfalso. apply R, (B r I), Q.
    + intros row I. apply filter_In in I as [I _]. exact (V row I).
  - repeat split; [exact N|rewrite <- T; apply sublist_map, S| | | |exact V].
    + apply W, H.
    + intros [Q _]. congruence.
    + intros [I _]. apply W, I.
Qed.
(** So records published in order give strictly increasing times. *)
Definition in_order (l : list Z) : Prop := forall i a b, nth_error l i = Some a -> nth_error l (S i) = Some b -> (a <= b)%Z.
Inductive ascending : list Z -> Prop := asc_nil : ascending [] | asc_cons x l : Forall (Z.le x) l -> ascending l -> ascending (x :: l).
Lemma sublist_forall {X} (P : X -> Prop) a l : sublist a l -> Forall P l -> Forall P a.
Proof. induction 1; intro F; [constructor| |]; inversion F; subst; [auto|constructor; auto]. Qed.
Lemma sublist_ascending a l : sublist a l -> ascending l -> ascending a.
Proof. induction 1 as [l|a x l H IH|x a l H IH]; intro A; [constructor| |]; inversion A; subst; [auto|]. constructor; [exact (sublist_forall _ _ _ H H2)|auto]. Qed.
Lemma in_order_ascending l : in_order l -> ascending l.
Proof.
  induction l as [|x l IH]; intro H; [constructor|]. assert (H' : in_order l) by (intros i a b A B; exact (H (S i) a b A B)). constructor; [|exact (IH H')].
  specialize (IH H'). destruct l as [|y l]; [constructor|]. assert (L := H 0%nat x y eq_refl eq_refl). inversion IH; subst. constructor; [exact L|].
  eapply Forall_impl; [|exact H2]. intros a Q. cbn in Q. lia.
Qed.
Theorem C177_times_increase : forall key mv0 mv1 m recs rows, published_missing key mv0 mv1 = Some m ->
  (forall a r, m = Some a -> In r recs -> IZR (lr_ms r) <> a) -> download_lisird key mv0 mv1 recs = Ok rows -> in_order (map lr_ms recs) ->
  forall i a b, nth_error (map l_t rows) i = Some a -> nth_error (map l_t rows) (S i) = Some b -> (a < b)%Z.
Proof.
  intros key mv0 mv1 m recs rows H K D O. destruct (C177_one_row_per_time key mv0 mv1 m recs rows H K D) as (N & S & _ & _).
  assert (A := sublist_ascending _ _ S (in_order_ascending _ O)). clear - N A. induction A as [|x l F A IH]; intros [|i] a b E1 E2; try discriminate.
  - cbn in E1, E2. injection E1 as <-. destruct l as [|y l]; [discriminate|]. injection E2 as <-. inversion F; subst. inversion N as [|? ? NI ?]; subst. assert (x <> y) by (intros ->; apply NI; left; reflexivity). lia.
  - inversion N; subst. exact (IH H2 i a b E1 E2).
Qed.
(** Refuted: "the times of a table increase": nothing sorts them. *)
Theorem C177_sorted_refuted : exists recs rows, download_lisird (T := XR) "MgII" None None recs = Ok rows /\ map l_t rows = [5; 3]%Z.
Proof.
  exists [mklrec 5 (fun _ => NaN); mklrec 3 (fun _ => NaN)]. eexists. split; [reflexivity|]. unfold verify_epoch. cbn [String.eqb Ascii.eqb Bool.eqb map lr_ms].
  cbn [first_of_each existsb l_ms to_nan]. rewrite !fin_ofZ, same_ms_Z. reflexivity.
Qed.
Example C177_ex : published_missing "f107-penticton" None None = Some None /\
  exists rows, download_lisird (T := XR) "f107-penticton" None None [mklrec 7 (fun _ => Fin 1); mklrec 7 (fun _ => Fin 2); mklrec 1061657971200 (fun _ => Fin 3); mklrec 9 (fun _ => Fin 4)] = Ok rows.
Proof. split; [reflexivity|]. eexists. reflexivity. Qed.

(* ---------------------------------------------------------------- C178 *)
(** Interpolating an indicator: its column's measured samples and nothing else are used. *)
Definition measured_samples (data : list (Z * (string -> option R))) (c : string) : list (Z * R) :=
  flat_map (fun r => match snd r c with Some v => [(fst r, v)] | None => [] end) data.
Lemma dropna_measured data c : dropna (map (fun r : Z * (string -> option R) => (fst r, snd r c)) data) = map (fun tv => (fst tv, Some (snd tv))) (measured_samples data c).
Proof.
  induction data as [|[t v] data IH]; [reflexivity|]. cbn [map]. unfold dropna in *. cbn [filter fst snd measured_samples flat_map]. destruct (v c) as [x|]; cbn [app map fst snd]; [f_equal|]; exact IH.
Qed.
Definition indicator_column (key c : string) : Prop :=
  In (key, c) [("Lalpha", "irradiance"); ("MgII", "mg_index"); ("CaK", "emdx"); ("f107-noaa", "adjusted_flux"); ("f107-penticton", "adjusted_flux")]%string.
Lemma column_known key c : indicator_column key c -> assoc key lisird_column = Some c.
Proof. unfold indicator_column. cbn [In]. intro H. repeat destruct H as [H|H]; try contradiction; injection H as <- <-; reflexivity. Qed.
Theorem C178_interpolates_measured : forall spline key c cols data target, indicator_column key c -> In c cols ->
  let src := measured_samples data c in
  ((exists res, lisird_interpolate spline key cols data target = Ok res) <->
     (4 <= List.length src)%nat /\ target <> [] /\ (forall i a b va vb, nth_error src i = Some (a, va) -> nth_error src (S i) = Some (b, vb) -> (a < b)%Z)) /\
  (forall res, sorted_times target -> lisird_interpolate spline key cols data target = Ok res ->
     exists lo hi, (exists v, In (lo, v) src) /\ (exists v, In (hi, v) src) /\ (forall t v, In (t, v) src -> (lo <= t <= hi)%Z) /\
       Forall2 (fun t r => ((lo <= t <= hi)%Z -> r = Some (spline src t)) /\ (~ (lo <= t <= hi)%Z -> r = None)) target res).
Proof.
  intros spline key c cols data target H I src. unfold lisird_interpolate. rewrite (column_known key c H). rewrite (proj2 (mem_str_In c cols) I), dropna_measured. fold src.
  destruct (C61_refusals spline src target) as [R1 R2]. split; [split|].
  - intros [res E]. assert (L : (4 <= List.length src)%nat). { destruct (le_lt_dec 4 (List.length src)) as [L|L]; [exact L|]. rewrite (R1 (or_introl L)) in E. discriminate. }
    assert (O : forall i a b va vb, nth_error src i = Some (a, va) -> nth_error src (S i) = Some (b, vb) -> (a < b)%Z).
    { intros i a b va vb E1 E2. destruct (Z.lt_ge_cases a b) as [Q|Q]; [exact Q|]. exfalso. rewrite R1 in E; [discriminate|]. right. exists i, a, b, va, vb. auto. }
    split; [exact L|]. split; [|exact O]. intros ->. destruct (R2 L O) as [R3 _]. rewrite (R3 eq_refl) in E. discriminate.
  - intros (L & N & O). destruct (R2 L O) as [_ R3]. exact (R3 N).
  - intros res ST E. exact (proj1 (C61_never_extrapolates_partial spline src target res ST E)).
Qed.
(** A missing sample never makes it fail, as it would in the general method. *)
Theorem C178_missing_samples_dropped : forall spline key c cols data target, indicator_column key c -> In c cols ->
  lisird_interpolate spline key cols data target <> Err NotImplementedError.
Proof.
  intros spline key c cols data target H I. unfold lisird_interpolate. rewrite (column_known key c H), (proj2 (mem_str_In c cols) I), dropna_measured. set (src := measured_samples data c).
  destruct (C61_refusals spline src target) as [R1 R2]. unfold interpolate_data in *.
  destruct (all_some _) eqn:E; [|exfalso].
  - destruct (_ || _); [discriminate|]. destruct target; [discriminate|]. destruct l as [|[? ?] ?]; discriminate.
  - clear - E. induction src as [|[t v] src IH]; [discriminate|]. cbn [map all_some fst snd] in E. destruct (all_some (map _ src)); [discriminate|]. exact (IH eq_refl).
Qed.
(** Refuted: "LISIRD's indicators can be normalised and have extrema": both are refused. *)
Theorem C178_normalisation_refuted : lisird_run_normalization = Err NotImplementedError /\ lisird_extrema = Err AttributeError.
Proof. split; reflexivity. Qed.
(** Refuted: "a downloaded table can be interpolated": out of order, it cannot. *)
Theorem C178_unsorted_refuted : forall spline target, exists data, (List.length (measured_samples data "mg_index") >= 4)%nat /\
  lisird_interpolate spline "MgII" ["mg_index"%string] data target = Err ValueError.
Proof.
  intros spline target. exists (map (fun t => (t, fun _ => Some 1%R)) [4; 3; 2; 1]%Z). split; [cbn; lia|]. reflexivity.
Qed.

(* ---------------------------------------------------------------- C179 *)
Lemma round_hundreds_near x : (Rabs (x - IZR (round_hundreds x)) <= 50)%R.
Proof.
  unfold round_hundreds. rewrite mult_IZR. assert (H := Znearest_half (fun x => negb (Z.even x)) (x / 100)).
  replace (x - 100 * IZR (ZnearestE (x / 100)))%R with (100 * (x / 100 - IZR (ZnearestE (x / 100))))%R by field. rewrite Rabs_mult, (Rabs_right 100) by lra. lra.
Qed.
Definition window (t0 t1 : Z) (data : list (Z * R)) : list (Z * R) := filter (fun s => in_window t0 t1 s) data.
Definition largest (m : R) (l : list (Z * R)) : Prop := (exists t, In (t, m) l) /\ forall t v, In (t, v) l -> (v <= m)%R.
Lemma fold_max l : forall x, (x <= fold_left Rmax l x)%R /\ (forall v, In v l -> (v <= fold_left Rmax l x)%R) /\ (fold_left Rmax l x = x \/ In (fold_left Rmax l x) l).
Proof.
  induction l as [|y l IH]; intro x; cbn [fold_left]; [split; [lra|split; [intros ? []|auto]]|]. destruct (IH (Rmax x y)) as (A & B & C).
  assert (X := Rmax_l x y). assert (Y := Rmax_r x y). split; [lra|]. split.
  - intros v [<-|I]; [lra|exact (B v I)].
  - destruct C as [C|C]; [|right; right; exact C]. rewrite C. unfold Rmax. destruct (Rle_dec x y); [right; left; reflexivity|left; reflexivity].
Qed.
(** The curve shows every sample of the window, at its time; the scale runs from 0 to the hundreds next to the largest, and a sample is where
    the scale says: at the fraction of the bar that it is of the scale's end. *)
Theorem C179_curve : forall y0 y1 t0 t1 data s1 pts m, colorbar_curve y0 y1 t0 t1 data = Ok (s1, pts) -> largest m (window t0 t1 data) -> (50 < m)%R ->
  (Rabs (m - IZR s1) <= 50)%R /\ (exists k, s1 = 100 * k)%Z /\ (0 < s1)%Z /\
  Forall2 (fun s p => snd p = fst s /\ fst p = Fin (y0 + snd s / IZR s1 * (y1 - y0))) (window t0 t1 data) pts.
Proof.
  intros y0 y1 t0 t1 data s1 pts m H (E & U) P. unfold colorbar_curve in H. change (filter (in_window t0 t1) data) with (window t0 t1 data) in H.
  destruct (window t0 t1 data) as [|s r] eqn:W; [discriminate|]. set (mx := fold_left Rmax (map snd r) (snd s)) in *.
  destruct (fold_max (map snd r) (snd s)) as (A & B & C). fold mx in A, B, C.
  assert (M : mx = m).
  { apply Rle_antisym.
    - destruct C as [C|C]; [rewrite C; apply (U (fst s)); left; destruct s; reflexivity|]. apply in_map_iff in C as (q & C & I). rewrite <- C. apply (U (fst q)). right. destruct q; exact I.
    - destruct E as [t [E|E]]; [rewrite E in A; exact A|]. apply B. apply (in_map snd) in E. exact E. }
  injection H as H1 H2. rewrite M in H1, H2. rewrite <- H1. assert (N := round_hundreds_near m). split; [exact N|]. split; [eexists; reflexivity|].
  assert (Z1 : (0 < round_hundreds m)%Z).
  { apply lt_IZR. apply Rabs_le_inv in N. lra. }
  split; [exact Z1|]. rewrite <- H2. assert (Q : IZR (round_hundreds m) <> 0%R) by (apply IZR_lt in Z1; lra). clear - Q.
  assert (G : forall l : list (Z * R), Forall2 (fun s p => snd p = fst s /\ fst p = Fin (y0 + snd s / IZR (round_hundreds m) * (y1 - y0))) l
     (map (fun p => ((Fin (snd p) / Fin (IZR (round_hundreds m)) * (Fin y1 - Fin y0) + Fin y0)%num, fst p)) l)).
  { induction l as [|p l IH]; [constructor|]. constructor; [|exact IH]. cbn [fst snd]. split; [reflexivity|]. rewrite (fin_div _ _ Q), fin_sub, fin_mul, fin_add. f_equal. ring. }
  exact (G (s :: r)).
Qed.
(** The ticks' labels are the values the scale gives their places (the limits unchanged). *)
Theorem C179_ticks : forall y0 y1 s1 k, s1 = (100 * k)%Z -> (0 < s1)%Z ->
  Forall (fun tick => fst tick = (y0 + IZR (snd tick) / IZR s1 * (y1 - y0))%R) (colorbar_ticks y0 y1 s1) /\ map snd (colorbar_ticks y0 y1 s1) = [0; 50 * k; s1]%Z.
Proof.
  intros y0 y1 s1 k E P. assert (Q : IZR s1 <> 0%R) by (apply IZR_lt in P; lra).
  assert (D : Z.quot s1 2 = (50 * k)%Z) by (rewrite E; replace (100 * k)%Z with ((50 * k) * 2)%Z by lia; apply Z.quot_mul; lia).
  unfold colorbar_ticks. rewrite D. split; [|reflexivity]. repeat constructor; cbn [fst snd].
  - field. exact Q.
  - rewrite E in *. rewrite !mult_IZR in *. field. intros F. rewrite F in Q. lra.
  - field. exact Q.
Qed.
(** Refuted: "the curve stays on the bar": the scale's end is rounded down too. *)
Theorem C179_on_the_bar_refuted : exists data s1 p, colorbar_curve 0 1 0 10 data = Ok (s1, [p]) /\ exists x, fst p = Fin x /\ (1 < x)%R.
Proof.
  exists [(1%Z, 140%R)]. unfold colorbar_curve. cbn [filter in_window fst snd Z.leb Z.compare andb Pos.compare Pos.compare_cont fold_left map].
  assert (E : round_hundreds 140 = 100%Z).
  { unfold round_hundreds. replace (ZnearestE (140 / 100)) with 1%Z; [reflexivity|]. symmetry. apply Znearest_imp. rewrite Rabs_right; lra. }
  rewrite E. eexists _, _. split; [reflexivity|]. cbn [fst]. assert (Q : 100%R <> 0%R) by lra. rewrite (fin_div 140 100 Q), fin_sub, fin_mul, fin_add. eexists. split; [reflexivity|lra].
Qed.
(** Refuted: "quiet times can be drawn": up to 50 the scale ends at 0 and every point is at infinity. *)
Theorem C179_quiet_refuted : exists data p, colorbar_curve 0 1 0 10 data = Ok (0%Z, [p]) /\ fst p = PInf.
Proof.
  exists [(1%Z, 40%R)]. unfold colorbar_curve. cbn [filter in_window fst snd Z.leb Z.compare andb Pos.compare Pos.compare_cont fold_left map].
  assert (E : round_hundreds 40 = 0%Z).
  { unfold round_hundreds. replace (ZnearestE (40 / 100)) with 0%Z; [reflexivity|]. symmetry. apply Znearest_imp. rewrite Rabs_right; lra. }
  rewrite E. eexists. split; [reflexivity|]. cbn [fst]. change (adiv (Fin 40) (Fin (IZR 0))) with (xdiv (Fin 40) (Fin 0)). unfold xdiv, inf_sign, Reqb, Rltb.
  destruct (Req_EM_T 0 0); [|lra]. destruct (Rlt_dec 0 40); [|lra]. rewrite fin_sub. change (amul PInf (Fin (1 - 0))) with (xmul PInf (Fin (1 - 0))). unfold xmul, inf_sign, Rltb.
  destruct (Rlt_dec 0 (1 - 0)); [reflexivity|lra].
Qed.

(* ---------------------------------------------------------------- C180 *)
Definition occurs_once (s : series) : Prop := NoDup (map fst s).
Lemma distinct_times_spec l : distinct_times l = true <-> NoDup l.
Proof.
  induction l as [|t l IH]; cbn [distinct_times]; [split; [constructor|reflexivity]|]. rewrite andb_true_iff, negb_true_iff, IH. split.
  - intros [A B]. constructor; [|exact B]. intro I. apply existsb_Zeqb in I. congruence.
  - intro H. inversion H; subst. split; [|assumption]. destruct (existsb (Z.eqb t) l) eqn:E; [apply existsb_Zeqb in E; contradiction|reflexivity].
Qed.
Lemma at_time_spec s t : occurs_once s -> forall v, at_time s t = Some v <-> In (t, v) s.
Proof.
  intros N v. unfold at_time. induction s as [|[a b] s IH]; [cbn; split; [discriminate|intros []]|]. inversion N as [|? ? N1 N2]; subst. cbn [find fst]. destruct (Z.eqb_spec a t) as [->|D].
  - cbn. split; [intro E; injection E as ->; auto|]. intros [E|I]; [congruence|]. exfalso. apply N1. apply (in_map fst) in I. exact I.
  - rewrite (IH N2). cbn. split; [auto|]. intros [E|I]; [congruence|exact I].
Qed.
(** the midnight before a time *)
Definition midnight (t d : Z) : Prop := (86400000000000 | d)%Z /\ (d <= t < d + 86400000000000)%Z.
Definition dated (s : series) : series := map (fun p => (day_of (fst p), snd p)) s.
Lemma day_of_midnight t : midnight t (day_of t).
Proof.
  unfold midnight, day_of. change day with 86400000000000%Z. split; [exists (t / 86400000000000)%Z; reflexivity|].
  assert (D := Z.div_mod t 86400000000000 ltac:(lia)). assert (B := Z.mod_pos_bound t 86400000000000 ltac:(lia)). lia.
Qed.
(** The joint table has one row for every time of any of the four tables, and in it each table's own value, or nothing; the magnesium
    index is dated by its day. *)
Theorem C180_joint_table : forall lalpha ssn mgii cak rows, all_indices lalpha ssn mgii cak = Ok rows ->
  NoDup (map fst rows) /\
  (forall t, In t (map fst rows) <-> exists v, In (t, v) lalpha \/ In (t, v) ssn \/ In (t, v) cak \/ exists t', In (t', v) mgii /\ midnight t' t) /\
  (forall t f, In (t, f) rows ->
     (forall v, f "Lalpha"%string = Some v <-> In (t, v) lalpha) /\ (forall v, f "ssn"%string = Some v <-> In (t, v) ssn) /\ (forall v, f "CaK"%string = Some v <-> In (t, v) cak) /\
     (forall v, f "MgII"%string = Some v <-> exists t', In (t', v) mgii /\ midnight t' t)).
Proof.
  intros lalpha ssn mgii cak rows H. unfold all_indices in H. fold (dated mgii) in H. set (mg := dated mgii) in *.
  destruct (negb _) eqn:G in H; [discriminate|]. apply negb_false_iff in G. cbn [forallb] in G. rewrite !andb_true_iff, !distinct_times_spec in G. destruct G as (G1 & G2 & G3 & G4 & _).
  injection H as <-.
  assert (MG : forall t v, In (t, v) mg <-> exists t', In (t', v) mgii /\ midnight t' t).
  { intros t v. unfold mg, dated. rewrite in_map_iff. split.
    - intros ([t' v'] & E & I). cbn in E. injection E as <- <-. exists t'. split; [exact I|apply day_of_midnight].
    - intros (t' & I & M). exists (t', v). split; [cbn; f_equal|exact I]. assert (M' := day_of_midnight t'). destruct M as [[a A] M], M' as [[b B] M']. lia. }
  rewrite map_map. cbn [fst]. rewrite map_id. split; [apply NoDup_nodup|]. split.
  - intro t. rewrite nodup_In, !in_app_iff, !in_map_iff. split.
    + intros [([a b] & <- & I)|[([a b] & <- & I)|[([a b] & <- & I)|([a b] & <- & I)]]]; cbn; exists b; auto. apply MG in I. auto.
    + intros (v & [I|[I|[I|I]]]); [left|right; left|do 3 right|do 2 right; left; apply MG in I]; exists (t, v); auto.
  - intros t f I. apply in_map_iff in I as (t' & E & _). injection E as <- <-. cbn [String.eqb Ascii.eqb Bool.eqb].
    split; [exact (at_time_spec lalpha t' G1)|]. split; [exact (at_time_spec ssn t' G2)|]. split; [exact (at_time_spec cak t' G4)|].
    intro v. rewrite (at_time_spec mg t' G3 v). apply MG.
Qed.
(** It exists exactly if no table repeats a time and the magnesium index has at most one sample a day. *)
Theorem C180_when : forall lalpha ssn mgii cak,
  (exists rows, all_indices lalpha ssn mgii cak = Ok rows) <-> occurs_once lalpha /\ occurs_once ssn /\ occurs_once cak /\ NoDup (map (fun p => day_of (fst p)) mgii).
Proof.
  intros lalpha ssn mgii cak. unfold all_indices, occurs_once. fold (dated mgii).
  assert (E : map fst (dated mgii) = map (fun p => day_of (fst p)) mgii) by (unfold dated; rewrite map_map; reflexivity). rewrite <- E.
  destruct (forallb _ _) eqn:G; cbn [negb]; cbn [forallb] in G.
  - rewrite !andb_true_iff, !distinct_times_spec in G. split; [tauto|eauto].
  - split; [intros [rows H]; discriminate|]. intros (A & B & C & D). exfalso. rewrite <- distinct_times_spec in A, B, C, D. rewrite A, B, C, D in G. discriminate.
Qed.
(** Refuted: "two samples of the magnesium index on one day can be joined". *)
Theorem C180_two_a_day_refuted : exists mgii, occurs_once mgii /\ all_indices [] [] mgii [] = Err ValueError.
Proof. exists [(1%Z, 1%R); (2%Z, 2%R)]. split; [repeat constructor; cbn; intuition discriminate|reflexivity]. Qed.
Example C180_ex : exists rows, all_indices [(0%Z, 1%R)] [(86400000000000%Z, 5%R)] [(3600%Z, 2%R)] [] = Ok rows /\ map fst rows = [86400000000000; 0]%Z.
Proof. eexists. split; reflexivity. Qed.
