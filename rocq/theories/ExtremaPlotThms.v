(** C240 (the plot of an indicator and its extrema). *)
From Coq Require Import List String Bool ZArith Lia Sorted.
From Verif Require Import Py Sort ExtremaCalc ExtremaCalcThms ExtremaPlot.
Import ListNotations.
Open Scope Z_scope.

Definition times_differ (data : list sample) : Prop := NoDup (map fst data).
Lemma data_at_ok data t v : times_differ data -> In (t, v) data -> data_at data t = Ok (t, v).
Proof.
  intros ND H. unfold data_at, times_differ in *. induction data as [|[t' v'] data IH]; [destruct H|]. cbn [find fst]. cbn [map fst] in ND. inversion ND as [|? ? N ND']; subst. destruct (t' =? t) eqn:E.
  - apply Z.eqb_eq in E. subst. destruct H as [H|H]; [congruence|]. exfalso. apply N. exact (in_map fst _ _ H).
  - apply Z.eqb_neq in E. destruct H as [H|H]; [congruence|]. apply IH; assumption.
Qed.
Lemma data_at_in data t s : data_at data t = Ok s -> fst s = t /\ In s data.
Proof.
  unfold data_at. destruct (find (fun s0 => fst s0 =? t) data) as [u|] eqn:E; [|discriminate]. intro H. assert (u = s) by congruence. subst. apply find_some in E. destruct E as [E1 E2]. apply Z.eqb_eq in E2. auto.
Qed.
Lemma mapM_data data l : (forall t, In t l -> exists s, data_at data t = Ok s) -> exists pts, mapM (data_at data) l = Ok pts /\ forall t v, In (t, v) pts <-> In t l /\ data_at data t = Ok (t, v).
Proof.
  induction l as [|t l IH]; intro H; [exists []; split; [reflexivity|]; intros t v; split; [intros []|intros [[] _]]|].
  destruct (H t (or_introl eq_refl)) as [[t0 v0] E]. destruct IH as [pts [Ep Hp]]; [intros u Hu; apply H; right; exact Hu|]. exists ((t0, v0) :: pts). cbn [mapM]. rewrite E. cbn [bind]. rewrite Ep. split; [reflexivity|].
  destruct (data_at_in _ _ _ E) as [F _]. cbn in F. subst t0. intros u w. cbn [In]. rewrite Hp. split.
  - intros [X|[X Y]]; [injection X as <- <-; auto|auto].
  - intros [[X|X] Y]; [subst u; left; congruence|right; auto].
Qed.

(** the extremum of a group is one of its measured samples, on the side of the threshold its kind says *)
Lemma group_value th g t k : group_extremum th g = Ok (Some (t, k)) -> exists x, In (t, Some x) g /\ if k then th < x else x <= th.
Proof.
  unfold group_extremum. destruct (clean g) as [|s r] eqn:E; [discriminate|].
  assert (Hc : forall u, In u (s :: r) -> In (fst u, Some (snd u)) g).
  { rewrite <- E. clear. intros u Hu. unfold clean in Hu. apply in_flat_map in Hu. destruct Hu as [[t v] [Hi Hu]]. cbn [fst snd] in Hu. destruct v as [x|]; [|destruct Hu]. destruct Hu as [<-|[]]. exact Hi. }
  destruct (best_max r s) as [Im Mm]. destruct (best_min r s) as [In_ Mn].
  set (mx := best (fun a b => b <? a) s r) in *. set (mn := best (fun a b => a <? b) s r) in *.
  assert (HX : (1 <= List.length (filter (fun s => (th <? snd s)%Z) (s :: r)))%nat -> th < snd mx).
  { intro L. destruct (filter (fun s => (th <? snd s)%Z) (s :: r)) as [|u f] eqn:Ef; [cbn in L; lia|]. assert (Iu : In u (filter (fun s => (th <? snd s)%Z) (s :: r))) by (rewrite Ef; left; reflexivity). apply filter_In in Iu. destruct Iu as [Iu Lu]. apply Z.ltb_lt in Lu. specialize (Mm u Iu). lia. }
  assert (HN : (1 <= List.length (filter (fun s => negb (th <? snd s)%Z) (s :: r)))%nat -> snd mn <= th).
  { intro L. destruct (filter (fun s => negb (th <? snd s)%Z) (s :: r)) as [|u f] eqn:Ef; [cbn in L; lia|]. assert (Iu : In u (filter (fun s => negb (th <? snd s)%Z) (s :: r))) by (rewrite Ef; left; reflexivity). apply filter_In in Iu. destruct Iu as [Iu Lu]. apply negb_true_iff, Z.ltb_ge in Lu. specialize (Mn u Iu). lia. }
  assert (HS : (List.length (filter (fun s => (th <? snd s)%Z) (s :: r)) + List.length (filter (fun s => negb (th <? snd s)%Z) (s :: r)) = List.length (s :: r))%nat).
  { generalize (s :: r). intro l. induction l as [|u l IH]; [reflexivity|]. cbn [filter]. destruct (th <? snd u); cbn [negb List.length]; lia. }
  cbn [List.length] in HS.
  destruct (List.length (filter (fun s => (th <? snd s)%Z) (s :: r))) as [|[|n]]; destruct (List.length (filter (fun s => negb (th <? snd s)%Z) (s :: r))) as [|[|m]]; intros H; try discriminate; injection H as <- <-;
    first [lia | exists (snd mx); split; [apply Hc; exact Im|apply HX; lia] | exists (snd mn); split; [apply Hc; exact In_|apply HN; lia]].
Qed.
Lemma cut_sub b data g : In g (cut b data) -> forall s, In s g -> In s data.
Proof.
  revert g. induction b as [|x b IH]; intros g H; [destruct H|]. destruct b as [|y b]; [destruct H|]. change (cut (x :: y :: b) data) with (filter (fun s => (x <? fst s) && (fst s <=? y)) data :: cut (y :: b) data) in H.
  destruct H as [<-|H]; [intros s Hs; apply filter_In in Hs; apply Hs|apply IH; exact H].
Qed.
Lemma mapM_found th gs e : mapM (group_extremum th) gs = Ok e -> forall p, In p (found e) -> exists g, In g gs /\ group_extremum th g = Ok (Some p).
Proof.
  revert e. induction gs as [|g gs IH]; intros e H p Hp; cbn [mapM] in H; [injection H as <-; destruct Hp|]. destruct (group_extremum th g) as [o|] eqn:Eg; [|discriminate]. cbn [bind] in H. destruct (mapM (group_extremum th) gs) as [e'|] eqn:Ee; [|discriminate]. cbn [bind] in H. injection H as <-.
  cbn [found flat_map] in Hp. apply in_app_or in Hp. destruct Hp as [Hp|Hp].
  - destruct o as [q|]; [|destruct Hp]. destruct Hp as [<-|[]]. exists g. split; [left; reflexivity|exact Eg].
  - destruct (IH e' eq_refl p Hp) as [g' [A B]]. exists g'. split; [right; exact A|exact B].
Qed.
Lemma far_sub p l t : In t (far_from_previous p l) -> In t l.
Proof. revert p. induction l as [|u l IH]; intros p H; [destruct H|]. cbn [far_from_previous] in H. destruct (separation <? u - p); [destruct H as [<-|H]; [left; reflexivity|]|]; right; exact (IH _ H). Qed.
Lemma apart_sub l l' t : apart l = Ok l' -> In t l' -> In t l.
Proof. destruct l as [|u l]; [discriminate|]. cbn [apart]. intro H. assert (u :: far_from_previous u l = l') by congruence. subst. intros [<-|Ht]; [left; reflexivity|right; exact (far_sub _ _ _ Ht)]. Qed.
Lemma extremum_value name th data raw0 raw1 ext t k : find_extrema name th data raw0 raw1 = Ok ext -> In (t, k) ext -> exists x, In (t, Some x) data /\ if k then th < x else x <= th.
Proof.
  unfold find_extrema. intros H Ht. apply bind_ok in H. destruct H as [b [Hb H]]. apply bind_ok in H. destruct H as [e [He H]]. apply bind_ok in H. destruct H as [mx [Hmx H]]. apply bind_ok in H. destruct H as [mn [Hmn H]].
  assert (E : sort_by time_leb (map (fun t => (t, true)) mx ++ map (fun t => (t, false)) mn) = ext) by congruence. subst ext. rewrite sort_by_In in Ht.
  assert (P : In t (pick k e)).
  { apply in_app_or in Ht. destruct Ht as [Ht|Ht]; apply in_map_iff in Ht; destruct Ht as [u [E Hu]]; injection E as -> <-.
    - apply (apart_sub _ _ _ Hmx) in Hu. exact (proj1 (sub_trim_max name (pick true e)) t Hu).
    - apply (apart_sub _ _ _ Hmn) in Hu. exact (proj1 (sub_trim_min name (pick false e)) t Hu). }
  rewrite pick_found in P. apply in_map_iff in P. destruct P as [[t' k'] [E P]]. cbn in E. subst t'. apply filter_In in P. destruct P as [P K]. cbn in K. apply eqb_prop in K. subst k'.
  destruct (mapM_found th _ _ He _ P) as [g [Ig Eg]]. destruct (group_value th g t k Eg) as [x [Ix Lx]]. exists x. split; [exact (cut_sub _ _ _ Ig _ Ix)|exact Lx].
Qed.

(** The red stars are exactly the maxima found and the green ones the minima, each at a measured value of the data, the red ones above the
    threshold and the green ones not. *)
Theorem C240_stars : forall name th data raw0 raw1 ext, times_differ data -> find_extrema name th data raw0 raw1 = Ok ext ->
  exists mx mn, stars ext data = Ok [mkArtist "Max" "red" false mx; mkArtist "Min" "limegreen" false mn] /\
    (forall t v, In (t, v) mx <-> In (t, true) ext /\ In (t, v) data) /\ (forall t v, In (t, v) mn <-> In (t, false) ext /\ In (t, v) data) /\
    (forall t v, In (t, v) mx -> exists x, v = Some x /\ th < x) /\ (forall t v, In (t, v) mn -> exists x, v = Some x /\ x <= th).
Proof.
  intros name th data raw0 raw1 ext ND H.
  assert (Q : forall t k, In (t, k) ext -> exists x, data_at data t = Ok (t, Some x) /\ if k then th < x else x <= th).
  { intros t k Ht. destruct (extremum_value _ _ _ _ _ _ t k H Ht) as [x [Ix Lx]]. exists x. split; [apply data_at_ok; assumption|exact Lx]. }
  assert (IM : forall (k : bool) t, In t (map fst (filter (fun e : Z * bool => if k then snd e else negb (snd e)) ext)) <-> In (t, k) ext).
  { intros k t. rewrite in_map_iff. split.
    - intros [[t' k'] [E F]]. cbn in E. subst t'. apply filter_In in F. destruct F as [F G]. cbn in G. destruct k, k'; try discriminate G; exact F.
    - intro F. exists (t, k). split; [reflexivity|]. apply filter_In. split; [exact F|destruct k; reflexivity]. }
  assert (EX : filter snd ext = filter (fun e : Z * bool => if true then snd e else negb (snd e)) ext) by reflexivity.
  destruct (mapM_data data (map fst (filter snd ext))) as [mx [Ex Hx]]; [intros t Ht; apply (IM true) in Ht; destruct (Q t true Ht) as [x [D _]]; exists (t, Some x); exact D|].
  destruct (mapM_data data (map fst (filter (fun e => negb (snd e)) ext))) as [mn [En Hn]]; [intros t Ht; apply (IM false) in Ht; destruct (Q t false Ht) as [x [D _]]; exists (t, Some x); exact D|].
  exists mx, mn. split; [unfold stars; rewrite Ex; cbn [bind]; rewrite En; reflexivity|].
  assert (DA : forall t v, data_at data t = Ok (t, v) <-> In (t, v) data) by (intros t v; split; [intro D; apply data_at_in in D; apply D|apply data_at_ok, ND]).
  split; [intros t v; rewrite Hx, DA, (IM true t); reflexivity|]. split; [intros t v; rewrite Hn, DA, (IM false t); reflexivity|].
  split; intros t v Hv; [apply Hx in Hv; destruct Hv as [I1 D]; apply (IM true) in I1; destruct (Q t true I1) as [x [D' L]]|apply Hn in Hv; destruct Hv as [I1 D]; apply (IM false) in I1; destruct (Q t false I1) as [x [D' L]]];
    exists x; (split; [congruence|exact L]).
Qed.

(** Whatever is asked for, the plot has the whole data curve and the threshold over all its times; crossings, ranges and stars are there
    exactly if asked for, and the legend names what is drawn but never the ranges. *)
Lemma crossing_data th data : forall p t, In t (crossings th p data) -> exists x, In (t, Some x) data.
Proof.
  induction data as [|[u v] data IH]; intros p t H; [destruct H|]. cbn [crossings] in H. destruct v as [x|].
  - destruct (match p with None => true | Some q => _ end); [destruct H as [<-|H]; [exists x; left; reflexivity|]|]; destruct (IH _ _ H) as [y Hy]; exists y; right; exact Hy.
  - destruct (IH _ _ H) as [y Hy]. exists y. right. exact Hy.
Qed.
Lemma legend_ranges gs : legend_names (range_lines gs) = [].
Proof. unfold legend_names, range_lines. rewrite map_map. cbn [ar_label]. induction (combine (seq 0 (List.length gs)) gs) as [|g l IH]; [reflexivity|]. cbn. exact IH. Qed.
Lemma legend_app a b : legend_names (a ++ b) = (legend_names a ++ legend_names b)%list.
Proof. unfold legend_names. rewrite map_app, filter_app. reflexivity. Qed.
Theorem C240_parts : forall th_text name th data raw0 raw1 ext (on_c on_e on_r : bool), times_differ data -> th_text th <> "indicator"%string -> find_extrema name th data raw0 raw1 = Ok ext ->
  exists cr rg st, make_plot th_text th data raw0 raw1 ext on_c on_e on_r = Ok ([data_line data; threshold_line th_text th data] ++ cr ++ rg ++ st)%list /\
    (cr = [] <-> on_c = false) /\ (on_r = false -> rg = []) /\ (st = [] <-> on_e = false) /\
    (on_c = true -> exists pts, cr = [mkArtist "Changes" "cyan" false pts] /\ forall t v, In (t, v) pts <-> In t (crossings th None data) /\ In (t, v) data) /\
    (on_r = true -> exists b, bins (crossings th None data) raw0 raw1 = Ok b /\ rg = range_lines (cut b data)) /\
    legend_names ([data_line data; threshold_line th_text th data] ++ cr ++ rg ++ st) =
      (["Rolled"%string; th_text th] ++ (if on_c then ["Changes"%string] else []) ++ (if on_e then ["Max"%string; "Min"%string] else []))%list.
Proof.
  intros th_text name th data raw0 raw1 ext on_c on_e on_r ND NT H. destruct (C240_stars _ _ _ _ _ _ ND H) as [mx [mn [Es _]]].
  destruct (mapM_data data (crossings th None data)) as [pts [Ep Hp]]; [intros t Ht; destruct (crossing_data _ _ _ _ Ht) as [x Hx]; exists (t, Some x); apply data_at_ok; assumption|].
  assert (HB : exists b, bins (crossings th None data) raw0 raw1 = Ok b) by (unfold find_extrema in H; apply bind_ok in H; destruct H as [b [Hb _]]; exists b; exact Hb). destruct HB as [b Hb].
  exists (if on_c then [mkArtist "Changes" "cyan" false pts] else []), (if on_r then range_lines (cut b data) else []), (if on_e then [mkArtist "Max" "red" false mx; mkArtist "Min" "limegreen" false mn] else []).
  split; [unfold make_plot, crossing_marks; rewrite Ep, Hb; destruct on_c, on_r, on_e; cbn [bind rmap]; rewrite ?Es; reflexivity|].
  split; [destruct on_c; split; congruence|]. split; [intros ->; reflexivity|]. split; [destruct on_e; split; congruence|].
  split; [intros ->; exists pts; split; [reflexivity|]; intros t v; rewrite Hp; split; intros [A B]; (split; [exact A|]); [apply data_at_in in B; apply B|apply data_at_ok; assumption]|].
  split; [intros ->; exists b; auto|].
  rewrite !legend_app. assert (LR : legend_names (if on_r then range_lines (cut b data) else []) = []) by (destruct on_r; [apply legend_ranges|reflexivity]). rewrite LR.
  assert (LT : (th_text th =? "indicator")%string = false) by (apply String.eqb_neq, NT).
  assert (LH : legend_names [data_line data; threshold_line th_text th data] = ["Rolled"%string; th_text th]) by (unfold legend_names, data_line, threshold_line; cbn [map ar_label filter]; rewrite LT; reflexivity).
  rewrite LH. destruct on_c, on_e; reflexivity.
Qed.

(** Neighbouring ranges have different colours, and the samples drawn in a range are exactly the data within it. *)
Theorem C240_ranges : forall (b : list Z) data i x y, nth_error b i = Some x -> nth_error b (S i) = Some y ->
  exists a, nth_error (range_lines (cut b data)) i = Some a /\ ar_label a = "indicator"%string /\ ar_line a = true /\
    (forall s, In s (ar_points a) <-> In s data /\ x < fst s <= y) /\
    forall a', nth_error (range_lines (cut b data)) (S i) = Some a' -> ar_colour a' <> ar_colour a.
Proof.
  intros b data i x y Hx Hy.
  assert (G : forall b i x y, nth_error b i = Some x -> nth_error b (S i) = Some y -> nth_error (cut b data) i = Some (filter (fun s => (x <? fst s) && (fst s <=? y)) data)).
  { clear. induction b as [|u b IH]; intros i x y Hx Hy; [destruct i; discriminate|]. destruct b as [|w b]; [destruct i as [|i]; [discriminate Hy|destruct i; discriminate Hx]|].
    change (cut (u :: w :: b) data) with (filter (fun s => (u <? fst s) && (fst s <=? w)) data :: cut (w :: b) data). destruct i as [|i]; [cbn [nth_error] in *; injection Hx as ->; injection Hy as ->; reflexivity|]. cbn [nth_error]. apply IH; assumption. }
  specialize (G b i x y Hx Hy). set (gs := cut b data) in *.
  assert (N : forall (l : list (list sample)) k j g, nth_error l j = Some g -> nth_error (combine (seq k (List.length l)) l) j = Some ((k + j)%nat, g)).
  { clear. induction l as [|h l IH]; intros k j g Hj; [destruct j; discriminate|]. cbn [List.length seq combine]. destruct j as [|j]; [cbn [nth_error] in *; rewrite Nat.add_0_r; injection Hj as ->; reflexivity|]. cbn [nth_error] in *. rewrite (IH (S k) j g Hj). f_equal. f_equal. lia. }
  assert (P : forall j g, nth_error gs j = Some g -> nth_error (range_lines gs) j = Some (mkArtist "indicator" (range_colour j) true g)).
  { intros j g Hj. unfold range_lines. rewrite nth_error_map. assert (Q := N gs 0%nat j g Hj). unfold sample in *. rewrite Q. reflexivity. }
  eexists. split; [exact (P _ _ G)|]. split; [reflexivity|]. split; [reflexivity|]. split.
  - intro s. cbn [ar_points]. rewrite filter_In, andb_true_iff, Z.ltb_lt, Z.leb_le. reflexivity.
  - intros a' Ha'. destruct (nth_error gs (S i)) as [g'|] eqn:Eg.
    + rewrite (P _ _ Eg) in Ha'. assert (E : mkArtist "indicator" (range_colour (S i)) true g' = a') by congruence. subst a'. cbn [ar_colour]. unfold range_colour. rewrite Nat.odd_succ, <- Nat.negb_odd. destruct (Nat.odd i); discriminate.
    + exfalso. apply nth_error_None in Eg. assert (L : List.length (range_lines gs) = List.length gs) by (unfold range_lines; rewrite map_length, combine_length, seq_length; lia). rewrite <- L in Eg. apply nth_error_None in Eg. congruence.
Qed.


(** The plot's window ends on the second of January 2020: an extremum found later is drawn, but not seen. *)
Definition later_data : list sample := map (fun p => (d (fst p), Some (snd p)))
  [(14000,20);(14050,25);(14100,24); (15200,5);(15300,4);(15400,6); (16600,21);(16700,22);(16800,21); (18900,4);(19000,3);(19100,4); (20300,20);(20400,25);(20500,20)].
Theorem C240_window_refuted : exists (data : list sample) (ext : list (Z * bool)) (mx mn : artist) (t : Z), times_differ data /\ find_extrema "myindex"%string 10 data (d 14000) (d 22000) = Ok ext /\ (stars ext data = Ok [mx; mn]) /\ In t (map fst (ar_points mx)) /\ forall year_of new_year left, snd (x_window year_of new_year left) < t.
Proof.
  exists later_data. eexists. eexists. eexists. exists (d 20400). split.
  - unfold times_differ, later_data. cbn. repeat (constructor; [cbn; unfold d; lia|]). constructor.
  - split; [vm_compute; reflexivity|]. split; [vm_compute; reflexivity|]. split; [vm_compute; auto 10|]. intros. reflexivity.
Qed.
Example C240_case : exists ext : list (Z * bool), find_extrema "myindex"%string 10 later_data (d 14000) (d 22000) = Ok ext /\ stars ext later_data = Ok [mkArtist "Max" "red" false [(d 14050, Some 25); (d 16700, Some 22); (d 20400, Some 25)]; mkArtist "Min" "limegreen" false [(d 15300, Some 4); (d 19000, Some 3)]].
Proof. eexists. split; vm_compute; reflexivity. Qed.

(** Which colour is whose: the curve C0, the threshold C1 over exactly the times of the data, the first, third, ... range fuchsia and the
    others dark orange. *)
Theorem C240_colours : forall (th_text : Z -> string) th data groups,
  (let c := data_line data in ar_label c = "Rolled"%string /\ ar_colour c = "C0"%string /\ ar_line c = true /\ ar_points c = data) /\
  (let c := threshold_line th_text th data in ar_label c = th_text th /\ ar_colour c = "C1"%string /\ ar_line c = true /\
     (forall t v, In (t, v) (ar_points c) <-> v = Some th /\ exists x, In (t, x) data) /\ map fst (ar_points c) = map fst data) /\
  forall i a, nth_error (range_lines groups) i = Some a -> nth_error groups i = Some (ar_points a) /\
     (Nat.Even i -> ar_colour a = "fuchsia"%string) /\ (Nat.Odd i -> ar_colour a = "darkorange"%string).
Proof.
  intros th_text th data groups. cbv zeta. split; [repeat split|]. split.
  - split; [reflexivity|]. split; [reflexivity|]. split; [reflexivity|]. cbn [threshold_line ar_points]. split.
    + intros t v. rewrite in_map_iff. split; [intros [[t' x] [E H]]; cbn in E; injection E as <- <-; split; [reflexivity|exists x; exact H]|intros [-> [x H]]; exists (t, x); auto].
    + rewrite map_map. reflexivity.
  - intros i a. unfold range_lines. rewrite nth_error_map.
    assert (N : forall (l : list (list sample)) k j, nth_error (combine (seq k (List.length l)) l) j = option_map (fun g => ((k + j)%nat, g)) (nth_error l j)).
    { clear. induction l as [|h l IH]; intros k j; [destruct j; reflexivity|]. cbn [List.length seq combine]. destruct j as [|j]; [cbn [nth_error option_map]; rewrite Nat.add_0_r; reflexivity|]. cbn [nth_error]. rewrite IH. destruct (nth_error l j); [|reflexivity]. cbn [option_map]. f_equal. f_equal. lia. }
    assert (Q := N groups 0%nat i). unfold sample in *. rewrite Q. destruct (nth_error groups i) as [g|]; [|discriminate]. cbn [option_map fst snd]. intro H. injection H as <-. cbn [ar_points ar_colour]. split; [reflexivity|]. unfold range_colour. split; intro O.
    + replace (Nat.odd i) with false; [reflexivity|]. symmetry. unfold Nat.odd. apply Nat.even_spec in O. rewrite O. reflexivity.
    + apply Nat.odd_spec in O. rewrite O. reflexivity.
Qed.
(** The window begins with the year before the one the left limit falls in and ends on 2 January 2020: 50 years with 12 leap days, and a day. *)
Theorem C240_window : forall year_of new_year left, fst (x_window year_of new_year left) = new_year (Z.pred (year_of left)) /\
  snd (x_window year_of new_year left) = (50 * 365 + 12 + 1) * (24 * 60 * 60).
Proof. intros. split; reflexivity. Qed.
