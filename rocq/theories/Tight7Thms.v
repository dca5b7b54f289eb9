(** More about contours (C194) and the labels of histograms (C195). *)
From Coq Require Import Reals List String Ascii Bool Arith ZArith Lra Lia.
From Verif Require Import Py PyStr Num Sort Activity ActivityThms FitFuncsThms Hist HistThms HistMoreThms HistPlot HistPlotThms PlotTools PlotToolsThms LabelTables Labels LabelsThms MoreLabelsThms Spacecraft Icme Tight5Thms Hist2DPlot Hist2DPlotThms.
Import ListNotations.
Open Scope list_scope.
Open Scope R_scope.

(** Where every cell holds a number, the default smoothing draws in each cell the sum of the cells of its window times their weights. *)
Theorem C194_default_smoothing_without_gaps : forall lx ly norm clim alim ex ey f data (K : list (list (nat * R))) (v : nat -> nat -> R),
  List.length K = (nbin ey * nbin ex)%nat ->
  let t := agg2 lx ly norm clim alim (map Fin ex) (map Fin ey) f data in
  (forall i j, (i < nbin ex)%nat -> (j < nbin ey)%nat -> agg2_value t i j = Fin (v i j)) ->
  (forall win, In win K -> forall p w, In (p, w) win -> (p < nbin ey * nbin ex)%nat) ->
  exists pic, contour_data lx ly norm clim alim (map Fin ex) (map Fin ey) f (Plain (map (map (fun pw => (fst pw, Fin (snd pw)))) K)) data = Ok pic
  /\ forall i j win, (i < nbin ex)%nat -> (j < nbin ey)%nat -> nth_error K (j * nbin ex + i) = Some win ->
     entry (p_C pic) j i = Some (Some (Fin (Rsum (map (fun pw : nat * R => snd pw * v (fst pw mod nbin ex)%nat (fst pw / nbin ex)%nat) win)))).
Proof.
  intros lx ly norm clim alim ex ey f data K v LK t V W. set (cells := List.concat (full_grid (map Fin ex) (map Fin ey) t)).
  eexists. split; [apply contour_ok; [reflexivity| |]; cbn [smooth]; fold t; fold cells; [apply chunk_len|intros row I; eapply chunk_rows; [|exact I]; unfold window_filter; rewrite !map_length; exact LK]|].
  cbn [p_C smooth]. fold t. fold cells. intros i j win Li Lj KW. unfold masked2. rewrite entry_map, chunk_entry by assumption.
  unfold window_filter. rewrite !nth_error_map, KW. cbn [option_map]. rewrite map_map.
  replace (map (fun x : nat * R => (snd (fst x, Fin (snd x)) * nth (fst (fst x, Fin (snd x))) cells anan)%num) win)
    with (map Fin (map (fun pw : nat * R => snd pw * v (fst pw mod nbin ex)%nat (fst pw / nbin ex)%nat) win)).
  - rewrite sum_strict_fin. reflexivity.
  - rewrite map_map. apply map_ext_in. intros [p w] I. cbn [fst snd].
    assert (LP := W win (nth_error_In _ _ KW) p w I). assert (NX : nbin ex <> 0%nat) by lia.
    assert (A := Nat.mod_upper_bound p (nbin ex) NX). assert (B := Nat.div_mod p (nbin ex) NX).
    assert (C : (p / nbin ex < nbin ey)%nat) by (apply Nat.div_lt_upper_bound; [exact NX|lia]).
    assert (E : nth p cells anan = Fin (v (p mod nbin ex) (p / nbin ex))%nat).
    { apply nth_error_nth. rewrite B at 1. rewrite (Nat.mul_comm (nbin ex)). unfold cells. rewrite concat_entry; [|apply grid_rows|exact A]. rewrite entry_grid by assumption. rewrite V by assumption. reflexivity. }
    rewrite E. rewrite fin_mul. reflexivity.
Qed.
Example C194_no_gaps_ex : exists pic, contour_data false false N2None nolim nolim (map Fin [0; 1; 2]) (map Fin [0; 1]) FDefault
    (Plain [[(0%nat, Fin (3/4)); (1%nat, Fin (1/4))]; [(1%nat, Fin 1)]]) [(Fin 1, Fin 1, Fin 1); (Fin 2, Fin 1, Fin 1); (Fin 2, Fin 1, Fin 1)] = Ok pic
  /\ entry (p_C pic) 0 0 = Some (Some (Fin (5/4))).
Proof.
  set (data := [(Fin 1, Fin 1, Fin 1); (Fin 2, Fin 1, Fin 1); (Fin 2, Fin 1, Fin 1)]).
  assert (S2 : strictly [0; 1]) by (intros i j H; cbn [List.length] in H; destruct j as [|[|j]]; [lia| |lia]; destruct i as [|i]; [cbn; lra|lia]).
  assert (U : unweighted data) by (intros r [<-|[<-|[<-|[]]]]; reflexivity).
  destruct (C194_default_smoothing_without_gaps false false N2None nolim nolim [0; 1; 2] [0; 1] FDefault data [[(0%nat, 3/4); (1%nat, 1/4)]; [(1%nat, 1)]] (fun i _ => if Nat.eqb i 0 then 1 else 2)) as (pic & E & H).
  - reflexivity.
  - intros i j Li Lj. change (nbin [0; 1; 2]) with 2%nat in Li. change (nbin [0; 1]) with 1%nat in Lj. destruct j; [|lia].
    rewrite counts2_value by (first [apply strictly_ordered, strictly_012|apply strictly_ordered, S2|exact U|left; reflexivity|exact Li|exact Lj|cbn; lia]).
    unfold tally, cell2, bin, inb, data; cbn [filter fst snd nth].
    destruct i as [|[|i]]; [| |lia]; cbn [filter fst snd nth Nat.add Nat.eqb].
    + replace (Rltb 0 1) with true by (symmetry; apply Rltb_true; lra). replace (Rleb 1 1) with true by (symmetry; apply Rleb_true; lra). replace (Rltb 0 2) with true by (symmetry; apply Rltb_true; lra). replace (Rleb 2 1) with false by (symmetry; apply Rleb_false; lra). reflexivity.
    + replace (Rltb 1 1) with false by (symmetry; apply Rltb_false; lra). replace (Rltb 0 1) with true by (symmetry; apply Rltb_true; lra). replace (Rleb 1 1) with true by (symmetry; apply Rleb_true; lra). replace (Rltb 1 2) with true by (symmetry; apply Rltb_true; lra). replace (Rleb 2 2) with true by (symmetry; apply Rleb_true; lra). cbn. reflexivity.
  - intros win [<-|[<-|[]]] p w I; cbn [In] in I; destruct I as [E|I]; try (apply (f_equal fst) in E; cbn in E; subst p; cbn; lia); [destruct I as [E|[]]; apply (f_equal fst) in E; cbn in E; subst p; cbn; lia|destruct I].
  - exists pic. split; [exact E|]. rewrite (H 0%nat 0%nat [(0%nat, 3/4); (1%nat, 1/4)]) by (cbn; first [lia|reflexivity]). cbn [nbin List.length Nat.pred map fst snd]. do 3 f_equal. cbn. lra.
Qed.
(** Whatever the smoothing returns, what is contoured covers the grid exactly, or the call is refused. *)
Theorem C194_contours_fit_or_are_refused : forall lx ly norm clim alim bx by_ f s data,
  match contour_data (T := XR) lx ly norm clim alim bx by_ f s data with
  | Ok pic => List.length (p_C pic) = List.length (p_y pic) /\ forall row, In row (p_C pic) -> List.length row = List.length (p_x pic)
  | Err e => e = AssertionError
  end.
Proof.
  intros. unfold contour_data. destruct (prep_agg false lx ly bx by_ (agg2 lx ly norm clim alim bx by_ f data)) as [[C x] y].
  destruct (Nat.eqb (List.length (smooth s (List.length x) (List.length y) C)) (List.length y)) eqn:E1; [|reflexivity]. cbn [andb].
  destruct (forallb (fun row => Nat.eqb (List.length row) (List.length x)) (smooth s (List.length x) (List.length y) C)) eqn:E2; [|reflexivity].
  cbn [p_C p_x p_y]. unfold masked2. rewrite map_length. split; [apply Nat.eqb_eq, E1|]. intros row I. apply in_map_iff in I as (r & <- & I). rewrite map_length.
  rewrite forallb_forall in E2. apply Nat.eqb_eq, E2, I.
Qed.
(** A smoothing whose output is too short is refused, one that fits is not. *)
Example C194_refused_ex : contour_data false false N2None nolim nolim (map Fin [0; 1; 2]) (map Fin [0; 1]) FDefault (Plain [[]]) [] = Err AssertionError
  /\ exists pic, contour_data false false N2None nolim nolim (map Fin [0; 1; 2]) (map Fin [0; 1]) FDefault (Plain [[]; []]) [] = Ok pic.
Proof.
  unfold contour_data. rewrite prep_mids. cbn [smooth]. rewrite !middles_len. split; [reflexivity|eexists; reflexivity].
Qed.

(** A label that is plain text: the figure is filed under the text with hyphens for its blanks, and the label of no other plot changes. *)
Theorem C195_text_label : forall h x s, exists x', set_label2 h x (Other s) = Ok (h, x') /\ h_norm x' = h_norm x /\ h_label x' = Other s /\ h_path x' = [write_char " " "-" s].
Proof. intros. eexists. split; [reflexivity|]. cbn [h_norm h_label h_path path_part]. rewrite replace_write. repeat split. Qed.
Example C195_text_ex : write_char " " "-" "mean wind speed" = "mean-wind-speed"%string.
Proof. reflexivity. Qed.

(** A normalisation that is not one of the documented ones is refused, and nothing changes. *)
Theorem C195_unknown_normalisation : forall h x s,
  (~ In (lower s) ["c"; "r"; "t"; "d"; "cd"; "rd"]%string -> set_axnorm2 h x (Some s) = Err AssertionError)
  /\ (forall c r, lower s = String c r -> c <> "d"%char -> set_axnorm1 h x (Some s) = Err AssertionError)
  /\ (s = ""%string -> set_axnorm1 h x (Some s) = Err IndexError).
Proof.
  intros h x s. split; [|split].
  - intro N. unfold set_axnorm2. cbn [option_map]. cbv zeta. destruct (mem_str (lower s) ["c"; "r"; "t"; "d"; "cd"; "rd"]%string) eqn:E; [|reflexivity]. exfalso. apply N, mem_str_In, E.
  - intros c r E N. unfold set_axnorm1. rewrite E. cbn [first_letter rmap bind]. destruct (String.eqb (String c EmptyString) "d") eqn:D; [|reflexivity].
    apply String.eqb_eq in D. exfalso. apply N. apply (f_equal (fun s => match s with String c _ => c | EmptyString => c end)) in D. exact D.
  - intros ->. reflexivity.
Qed.
Example C195_unknown_ex : set_axnorm2 [] (mkHist (Some None) (Other "z") []) (Some "X"%string) = Err AssertionError /\ set_axnorm1 [] (mkHist None (Other "y") []) (Some "Total"%string) = Err AssertionError.
Proof. split; reflexivity. Qed.

(** A new one-dimensional histogram: with values it is labelled "y", without them by a Count of its own naming its normalisation. *)
Theorem C195_new_hist1d : forall n,
  (forall h x, new_hist1 false n = Ok (h, x) -> exists id c, h_label x = CountObj id /\ nth_error h id = Some c /\ named c (option_map lower n) /\ h_norm x = Some (option_map lower n) /\ h_path x = count_path (option_map lower n))
  /\ (forall h x, new_hist1 true n = Ok (h, x) -> h_label x = Other "y"%string /\ h_path x = ["y"%string]).
Proof.
  intro n. split; intros h x E; unfold new_hist1 in E; destruct (set_axnorm1 [] (mkHist None (Other "y") []) n) as [[h0 x0]|] eqn:E0; try discriminate E; cbn [bind fst snd] in E.
  - destruct (count_label lower upper n None) as [lab|] eqn:EL; [|discriminate E]. cbn [bind] in E. unfold set_label1 in E. apply ok_inj in E.
    assert (NM := count_label_named n lab EL (option_map lower n)).
    assert (EH : h = [mkCount (option_map lower n) lab]) by (symmetry; exact (f_equal fst E)). assert (EX := f_equal snd E). cbn [snd] in EX. subst h x. cbn [h_label h_norm h_path path_part nth_error].
    exists 0%nat, (mkCount (option_map lower n) lab). split; [reflexivity|]. split; [reflexivity|]. split; [exact NM|].
    split; [|apply NM].
    unfold set_axnorm1 in E0. destruct n as [a|].
    + destruct (lower a) as [|ch r] eqn:LA; [discriminate E0|]. cbn [first_letter rmap bind] in E0. destruct (String.eqb (String ch EmptyString) "d") eqn:D; [|discriminate E0]. cbn [h_label bind] in E0. apply ok_inj in E0. assert (E1 := f_equal snd E0). cbn [snd] in E1. subst x0. cbn [h_norm option_map]. rewrite LA.
      apply String.eqb_eq in D. assert (DC : ch = "d"%char) by (apply (f_equal (fun s => match s with String c _ => c | EmptyString => ch end)) in D; exact D). subst ch.
      destruct NM as [TX _]. cbn [option_map] in TX. rewrite LA in TX. destruct r as [|c1 r]; [reflexivity|]. exfalso.
      cbn [count_tex] in TX. discriminate TX.
    + cbn [bind h_label] in E0. apply ok_inj in E0. assert (E1 := f_equal snd E0). cbn [snd] in E1. subst x0. reflexivity.
  - unfold set_label1 in E. apply ok_inj in E. assert (EX := f_equal snd E). cbn [snd] in EX. subst x. split; reflexivity.
Qed.
Example C195_new_hist1d_ex : exists r, new_hist1 false (Some "D"%string) = Ok r.
Proof. eexists. reflexivity. Qed.
