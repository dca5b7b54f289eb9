(** C146 (the save path shows labels and scales), C147 (the plotted rows), C148 (limits), C149 (colour bars),
    C150 (clipped scatter plots), C151 (transposed axes), C152 (indicator plots). *)
From Coq Require Import List String Ascii Bool Arith ZArith Reals Lra Lia.
From Verif Require Import Py PyStr Num PlotBase.
Import ListNotations.
Open Scope string_scope.
Open Scope list_scope.

(* ================================================================ C146 *)
(** What the path of a plot should say, from its labels and scales. *)
Definition x_word (b : bool) : string := if b then "logX" else "linX".
Definition y_word (b : bool) : string := if b then "logY" else "linY".
Definition scale_word (lx ly : bool) : string := (x_word lx ++ "-" ++ y_word ly)%string.
Lemma scale_eq s : join "-" [xscale s; yscale s] = scale_word (s_logx s) (s_logy s).
Proof. unfold scale_word, x_word, y_word, xscale, yscale. destruct (s_logx s), (s_logy s); reflexivity. Qed.
Definition named (l : plabel) : Prop := match l with PStr s => s <> "" | PObj p => p <> "" | PNone => True end.
Lemma dashes_nonempty s : s <> "" -> dashes s <> "".
Proof. destruct s; [congruence|discriminate]. Qed.
Lemma component_nonempty d l : d <> "" -> named l -> component d l <> "".
Proof. intros D N. destruct l as [|s|p]; cbn in *; auto. destruct (String.eqb s "None"); [exact D|apply dashes_nonempty, N]. Qed.
Lemma parts_id l : (forall p, In p l -> p <> "") -> parts l = l.
Proof.
  induction l as [|p l IH]; intros H; cbn; [reflexivity|]. rewrite (proj2 (String.eqb_neq _ _)) by (apply H; left; reflexivity). cbn. f_equal. apply IH. intros q I. apply H. right. exact I.
Qed.
Definition well_named (s : pstate) : Prop := class_name (s_class s) <> "" /\ named (s_x s) /\ named (s_y s) /\ named (s_z s).
(** The automatic path: class / x / y (/ z) / scales; when the z component ends in "norm" the scales go in front of it. *)
Theorem C146_automatic_path : forall s, well_named s ->
  let c := class_name (s_class s) in let x := component "x" (s_x s) in let y := component "y" (s_y s) in let z := component "z" (s_z s) in
  path_of s Auto true = match s_class s with
    | Hist1 _ => [c; x; y; x_word (s_logx s)]
    | Indicator _ => [c; x; y; scale_word (s_logx s) (s_logy s)]
    | Zdata _ => if ends_in "norm" z then [c; x; y; (scale_word (s_logx s) (s_logy s) ++ "-" ++ z)%string] else [c; x; y; z; scale_word (s_logx s) (s_logy s)]
    end
  /\ path_of s Auto false = [c; x; y] ++ match s_class s with Zdata _ => [z] | _ => [] end.
Proof.
  intros s (HC & HX & HY & HZ). cbv zeta. pose proof (component_nonempty "x" _ ltac:(discriminate) HX) as CX. pose proof (component_nonempty "y" _ ltac:(discriminate) HY) as CY. pose proof (component_nonempty "z" _ ltac:(discriminate) HZ) as CZ.
  assert (B : parts ([class_name (s_class s); component "x" (s_x s); component "y" (s_y s)] ++ match s_class s with Zdata _ => [component "z" (s_z s)] | _ => [] end)
            = [class_name (s_class s); component "x" (s_x s); component "y" (s_y s)] ++ match s_class s with Zdata _ => [component "z" (s_z s)] | _ => [] end).
  { apply parts_id. intros p I. apply in_app_iff in I as [[<-|[<-|[<-|[]]]]|I]; try assumption. destruct (s_class s); [destruct I as [<-|[]]; assumption|destruct I|destruct I]. }
  unfold path_of. rewrite B, !scale_eq. cbn [negb]. split; [|reflexivity]. destruct (s_class s); cbn [app rev]; try reflexivity.
Qed.
Lemma append_inj_l (a b c : string) : (a ++ b = a ++ c)%string -> b = c.
Proof. induction a as [|x a IH]; cbn; [auto|]. intro H. injection H as H. apply IH, H. Qed.
Lemma scale_word_prefix lx ly lx' ly' (a b : string) : (scale_word lx ly ++ a = scale_word lx' ly' ++ b)%string -> lx = lx' /\ ly = ly' /\ a = b.
Proof. destruct lx, ly, lx', ly'; cbn; intro H; first [split; [reflexivity|split; [reflexivity|congruence]]|discriminate H]. Qed.
Lemma app_empty_r s : (s ++ "")%string = s.
Proof. induction s as [|c s IH]; cbn; [reflexivity|]. rewrite IH. reflexivity. Qed.
(** Two plots of one class with equal automatic paths have the same components and the same scales. *)
Theorem C146_path_identifies_labels_and_scales : forall s s' n, s_class s = Zdata n -> s_class s' = Zdata n -> well_named s -> well_named s' ->
  path_of s Auto true = path_of s' Auto true ->
  component "x" (s_x s) = component "x" (s_x s') /\ component "y" (s_y s) = component "y" (s_y s') /\ component "z" (s_z s) = component "z" (s_z s')
  /\ s_logx s = s_logx s' /\ s_logy s = s_logy s'.
Proof.
  intros s s' n E E' W W' H. rewrite (proj1 (C146_automatic_path s W)), (proj1 (C146_automatic_path s' W')), E, E' in H.
  destruct (ends_in "norm" (component "z" (s_z s))), (ends_in "norm" (component "z" (s_z s'))); try discriminate H.
  - injection H as H1 H2 H3. apply scale_word_prefix in H3 as (A & B & C). cbn [append] in C. injection C as C. auto.
  - injection H as H1 H2 H3 H4. rewrite <- (app_empty_r (scale_word (s_logx s) _)), <- (app_empty_r (scale_word (s_logx s') _)) in H4. apply scale_word_prefix in H4 as (A & B & _). auto.
Qed.
(** set_labels changes the labels that are named, keeps the others, and updates the path; anything else is a KeyError, and
    a z label of a one-dimensional histogram a ValueError. *)
Definition lookup (k : string) (kw : list (string * plabel)) (d : plabel) : plabel :=
  match find (fun e => String.eqb (fst e) k) kw with Some (_, v) => v | None => d end.
Theorem C146_set_labels : forall kw s s', set_labels kw true s = Ok s' ->
  s_x s' = lookup "x" kw (s_x s) /\ s_y s' = lookup "y" kw (s_y s) /\ s_z s' = lookup "z" kw (s_z s)
  /\ s_logx s' = s_logx s /\ s_logy s' = s_logy s /\ s_class s' = s_class s /\ s_path s' = path_of s' Auto true.
Proof.
  intros kw s s' H. unfold set_labels in H. cbv zeta in H.
  assert (K : s' = set_path Auto true (mkState (s_class s) (lookup "x" kw (s_x s)) (lookup "y" kw (s_y s)) (lookup "z" kw (s_z s)) (s_logx s) (s_logy s) (s_path s))).
  { destruct (s_class s); [|destruct (mem_str _ _); [discriminate|]|]; (destruct (forallb _ kw); [|discriminate]); injection H as <-; reflexivity. }
  subst s'. cbn. repeat split.
Qed.
Theorem C146_unexpected_label : forall kw s b k v, In (k, v) kw ->
  (k <> "x" -> k <> "y" -> k <> "z" -> exists e, set_labels kw b s = Err e /\ (e = KeyError \/ (exists n, s_class s = Hist1 n) /\ e = ValueError))
  /\ (forall n, k = "z" -> s_class s = Hist1 n -> set_labels kw b s = Err ValueError).
Proof.
  intros kw s b k v I. unfold set_labels. cbv zeta. split.
  - intros Nx Ny Nz. assert (E : forallb (fun e => mem_str (fst e) ["x"; "y"; "z"]) kw = false).
    { destruct (forallb _ kw) eqn:E; [|reflexivity]. exfalso. pose proof (proj1 (forallb_forall _ _) E _ I) as Q. cbn [fst] in Q. apply mem_str_In in Q. cbn in Q. intuition congruence. }
    rewrite E. destruct (s_class s) as [n|n|n]; [|destruct (mem_str "z" (map fst kw))|]; eexists; (split; [reflexivity|]); eauto.
  - intros n -> E. rewrite E. assert (M : mem_str "z" (map fst kw) = true) by (apply mem_str_In, in_map_iff; exists ("z", v); auto). rewrite M. reflexivity.
Qed.
(** Changing the scale alone leaves the old path in place. *)
Theorem C146_path_after_set_log_refuted :
  ~ (forall s x y, s_path s = path_of s Auto true -> s_path (set_log x y s) = path_of (set_log x y s) Auto true).
Proof.
  intro H. pose (s0 := mkState (Zdata "Hist2D") (PStr "x") (PStr "y") (PStr "z") false false []).
  specialize (H (set_path Auto true s0) (Some true) None eq_refl). discriminate H.
Qed.
Theorem C146_set_log : forall s x y, s_logx (set_log x y s) = match x with Some b => b | None => s_logx s end
  /\ s_logy (set_log x y s) = match y with Some b => b | None => s_logy s end
  /\ s_x (set_log x y s) = s_x s /\ s_y (set_log x y s) = s_y s /\ s_z (set_log x y s) = s_z s
  /\ (forall s', set_labels [] true (set_log x y s) = Ok s' -> s_path s' = path_of s' Auto true /\ s_logx s' = s_logx (set_log x y s) /\ s_logy s' = s_logy (set_log x y s)).
Proof.
  intros s x y. repeat (split; [reflexivity|]). intros s' H. apply C146_set_labels in H. cbn [s_logx s_logy] in *. tauto.
Qed.
(** Given paths are kept (plus the scales); blanks in text labels become dashes, so two labels can share a component. *)
Theorem C146_given_path : forall s p l, s_class s = Hist1 "Hist1D" -> path_of s (Given p) true = p ++ [x_word (s_logx s)] /\ path_of s (Given p) false = p
  /\ path_of s NoPath true = [x_word (s_logx s)] /\ component "x" (PStr "a b") = component "x" (PStr "a-b") /\ component "x" (PObj l) = l /\ component "x" PNone = component "x" (PStr "None").
Proof. intros s p l E. unfold path_of. rewrite E. repeat split; unfold xscale, x_word; destruct (s_logx s); reflexivity. Qed.
Example C146_ex : well_named (mkState (Zdata "Hist2D") (PStr "a b") (PObj "v_x_p") (PObj "count_Cnorm") true false [])
  /\ path_of (mkState (Zdata "Hist2D") (PStr "a b") (PObj "v_x_p") (PObj "count_Cnorm") true false []) Auto true = ["Hist2D"; "a-b"; "v_x_p"; "logX-linY-count_Cnorm"].
Proof. split; [repeat split; discriminate|reflexivity]. Qed.

(* ================================================================ C147 *)
(** The plotted rows are the rows without a NaN, in their order; no such row is a ValueError. *)
Definition complete (r : XR * XR * XR) : Prop := fst (fst r) <> NaN /\ snd (fst r) <> NaN /\ snd r <> NaN.
Lemma isnan_spec (x : XR) : aisnan x = true <-> x = NaN.
Proof. destruct x; cbn; split; intro H; first [reflexivity|discriminate H]. Qed.
Lemma complete_dec r : negb (aisnan (fst (fst r)) || aisnan (snd (fst r)) || aisnan (snd r)) = true <-> complete r.
Proof.
  rewrite negb_true_iff, !orb_false_iff. unfold complete. rewrite <- !isnan_spec. repeat rewrite not_true_iff_false. tauto.
Qed.
Fixpoint subrows (p : XR * XR * XR -> Prop) (l k : list (XR * XR * XR)) : Prop :=
  match l with [] => k = [] | r :: l' => (p r /\ exists k', k = r :: k' /\ subrows p l' k') \/ (~ p r /\ subrows p l' k) end.
Lemma filter_subrows l : subrows complete l (filter (fun r => negb (aisnan (fst (fst r)) || aisnan (snd (fst r)) || aisnan (snd r))) l).
Proof.
  induction l as [|r l IH]; cbn [filter subrows]; [reflexivity|]. destruct (negb _) eqn:E.
  - left. split; [apply complete_dec, E|]. eexists. split; [reflexivity|exact IH].
  - right. split; [|exact IH]. intro C. apply complete_dec in C. congruence.
Qed.
Theorem C147_plotted_rows : forall x y z, List.length x = List.length y -> List.length z = List.length x ->
  match set_zdata x y (Some z) with
  | Ok rows => rows <> [] /\ subrows complete (combine (combine x y) z) rows
  | Err e => e = ValueError /\ forall r, In r (combine (combine x y) z) -> ~ complete r
  end.
Proof.
  intros x y z L1 L2. unfold set_zdata. cbv zeta. pose proof (filter_subrows (combine (combine x y) z)) as F. 
  match goal with |- context [filter ?f ?l] => destruct (filter f l) as [|r rows] eqn:E end.
  - split; [reflexivity|]. intros r I C. assert (Q : In r []) by (rewrite <- E; apply filter_In; split; [exact I|apply complete_dec, C]). exact Q.
  - split; [discriminate|exact F].
Qed.
(** Without z every row counts one. *)
Theorem C147_no_z : forall (x y : list XR), List.length x = List.length y -> set_zdata x y None = set_zdata x y (Some (map (fun _ => Fin 1) x)).
Proof. intros x y L. unfold set_zdata. cbv zeta. rewrite fin_ofZ. reflexivity. Qed.
Theorem C147_only_nan_refused : forall (x y : list XR) z, (forall v, In v x -> v = NaN) -> set_zdata x y z = Err ValueError.
Proof.
  intros x y z H. unfold set_zdata. cbv zeta.
  match goal with |- context [filter ?f ?l] => destruct (filter f l) as [|r rows] eqn:E; [reflexivity|exfalso] end.
  assert (I : In r (r :: rows)) by (left; reflexivity). rewrite <- E in I. apply filter_In in I as [I C]. apply complete_dec in C. destruct C as (C & _). apply C, H.
  destruct r as [[a b] c]. apply in_combine_l in I. apply in_combine_l in I. exact I.
Qed.
Example C147_ex : set_zdata [Fin 1; NaN; Fin 3] [Fin 4; Fin 5; Fin 6] None = Ok [(Fin 1, Fin 4, aofZ 1); (Fin 3, Fin 6, aofZ 1)].
Proof. reflexivity. Qed.

(* ================================================================ C148 *)
Open Scope R_scope.
Lemma col_min_fin l : forall a, exists m, col_min (map Fin (a :: l)) = Fin m /\ In m (a :: l) /\ forall v, In v (a :: l) -> m <= v.
Proof.
  unfold col_min. cbn [map]. induction l as [|b l IH]; intros a; cbn [map fold_left].
  - exists a. split; [reflexivity|]. split; [left; reflexivity|]. intros v [<-|[]]. lra.
  - rewrite fin_ltb. destruct (Rltb b a) eqn:E; [apply Rltb_true in E|apply Rltb_false in E].
    + destruct (IH b) as (m & H1 & H2 & H3). exists m. split; [exact H1|]. split; [right; exact H2|]. intros v [<-|I]; [specialize (H3 b (or_introl eq_refl)); lra|apply H3, I].
    + destruct (IH a) as (m & H1 & H2 & H3). exists m. split; [exact H1|]. split; [destruct H2 as [->|H2]; [left; reflexivity|right; right; exact H2]|].
      intros v [<-|[<-|I]]; [apply H3; left; reflexivity|specialize (H3 a (or_introl eq_refl)); lra|apply H3; right; exact I].
Qed.
Lemma col_max_fin l : forall a, exists m, col_max (map Fin (a :: l)) = Fin m /\ In m (a :: l) /\ forall v, In v (a :: l) -> v <= m.
Proof.
  unfold col_max. cbn [map]. induction l as [|b l IH]; intros a; cbn [map fold_left].
  - exists a. split; [reflexivity|]. split; [left; reflexivity|]. intros v [<-|[]]. lra.
  - rewrite fin_ltb. destruct (Rltb a b) eqn:E; [apply Rltb_true in E|apply Rltb_false in E].
    + destruct (IH b) as (m & H1 & H2 & H3). exists m. split; [exact H1|]. split; [right; exact H2|]. intros v [<-|I]; [specialize (H3 b (or_introl eq_refl)); lra|apply H3, I].
    + destruct (IH a) as (m & H1 & H2 & H3). exists m. split; [exact H1|]. split; [destruct H2 as [->|H2]; [left; reflexivity|right; right; exact H2]|].
      intros v [<-|[<-|I]]; [apply H3; left; reflexivity|specialize (H3 a (or_introl eq_refl)); lra|apply H3; right; exact I].
Qed.
Definition fin_row (p : R * R * R) : XR * XR * XR := (Fin (fst (fst p)), Fin (snd (fst p)), Fin (snd p)).
(** The data limits are the smallest box around the plotted points: they contain every point, and each side touches one. *)
Theorem C148_limits : forall rows, rows <> [] -> exists x0 y0 x1 y1,
  data_corners (map fin_row rows) = ((Fin x0, Fin y0), (Fin x1, Fin y1))
  /\ (forall r, In r rows -> x0 <= fst (fst r) <= x1 /\ y0 <= snd (fst r) <= y1)
  /\ (exists r, In r rows /\ fst (fst r) = x0) /\ (exists r, In r rows /\ fst (fst r) = x1)
  /\ (exists r, In r rows /\ snd (fst r) = y0) /\ (exists r, In r rows /\ snd (fst r) = y1).
Proof.
  intros rows N. destruct rows as [|r0 rows]; [congruence|]. clear N. unfold data_corners. cbv zeta.
  assert (EX : map (fun r => fst (fst r)) (map fin_row (r0 :: rows)) = map Fin (fst (fst r0) :: map (fun r => fst (fst r)) rows)) by (cbn [map]; rewrite !map_map; reflexivity).
  assert (EY : map (fun r => snd (fst r)) (map fin_row (r0 :: rows)) = map Fin (snd (fst r0) :: map (fun r => snd (fst r)) rows)) by (cbn [map]; rewrite !map_map; reflexivity).
  rewrite EX, EY.
  destruct (col_min_fin (map (fun r => fst (fst r)) rows) (fst (fst r0))) as (x0 & -> & X0 & X0').
  destruct (col_max_fin (map (fun r => fst (fst r)) rows) (fst (fst r0))) as (x1 & -> & X1 & X1').
  destruct (col_min_fin (map (fun r => snd (fst r)) rows) (snd (fst r0))) as (y0 & -> & Y0 & Y0').
  destruct (col_max_fin (map (fun r => snd (fst r)) rows) (snd (fst r0))) as (y1 & -> & Y1 & Y1').
  exists x0, y0, x1, y1. split; [reflexivity|].
  assert (IX : forall v, In v (fst (fst r0) :: map (fun r => fst (fst r)) rows) <-> exists r, In r (r0 :: rows) /\ fst (fst r) = v).
  { intro v. change (fst (fst r0) :: map (fun r => fst (fst r)) rows) with (map (fun r : R * R * R => fst (fst r)) (r0 :: rows)). rewrite in_map_iff. split; intros (r & A & B); exists r; tauto. }
  assert (IY : forall v, In v (snd (fst r0) :: map (fun r => snd (fst r)) rows) <-> exists r, In r (r0 :: rows) /\ snd (fst r) = v).
  { intro v. change (snd (fst r0) :: map (fun r => snd (fst r)) rows) with (map (fun r : R * R * R => snd (fst r)) (r0 :: rows)). rewrite in_map_iff. split; intros (r & A & B); exists r; tauto. }
  split; [|split; [apply IX, X0|split; [apply IX, X1|split; [apply IY, Y0|apply IY, Y1]]]].
  intros r I. assert (AX : In (fst (fst r)) (fst (fst r0) :: map (fun r => fst (fst r)) rows)) by (apply IX; exists r; auto).
  assert (AY : In (snd (fst r)) (snd (fst r0) :: map (fun r => snd (fst r)) rows)) by (apply IY; exists r; auto).
  specialize (X0' _ AX). specialize (X1' _ AX). specialize (Y0' _ AY). specialize (Y1' _ AY). lra.
Qed.
Print Assumptions C148_limits.
Example C148_ex : [((1, 2), 3); ((0, 5), 3)] <> @nil (R * R * R). Proof. discriminate. Qed.

(* ================================================================ C149 *)
(** The colour bar goes where the caller says, else next to the plotted axes; saying both is a ValueError. *)
Theorem C149_colour_bar : forall ax k,
  (k_ax k = None -> k_cax k = None -> fst (place_cbar ax k) = Ok (NextTo ax))
  /\ (forall a, k_ax k = Some a -> k_cax k = None -> place_cbar ax k = (Ok (NextTo a), k))
  /\ (forall c, k_ax k = None -> k_cax k = Some c -> place_cbar ax k = (Ok (Inside c), k))
  /\ (forall a c, k_ax k = Some a -> k_cax k = Some c -> place_cbar ax k = (Err ValueError, k))
  /\ make_cbar (mkCbar None None) = Err ValueError.
Proof.
  intros ax [a c]. unfold place_cbar. cbn [k_ax k_cax]. repeat split.
  - intros -> ->. reflexivity.
  - intros a' -> ->. reflexivity.
  - intros c' -> ->. reflexivity.
  - intros a' c' -> ->. reflexivity.
Qed.
(** The caller's dict is filled in: used again for a second plot, it puts the second colour bar next to the first plot. *)
Theorem C149_second_plot_with_the_same_dict_refuted : forall ax1 ax2, ax1 <> ax2 ->
  let '(r1, k1) := place_cbar ax1 (mkCbar None None) in let '(r2, _) := place_cbar ax2 k1 in
  r1 = Ok (NextTo ax1) /\ r2 = Ok (NextTo ax1) /\ r2 <> Ok (NextTo ax2).
Proof. intros ax1 ax2 N. cbn. split; [reflexivity|]. split; [reflexivity|]. congruence. Qed.
Example C149_ex : place_cbar 3 (mkCbar None (Some 7%nat)) = (Ok (Inside 7), mkCbar None (Some 7%nat)).
Proof. reflexivity. Qed.

(* ================================================================ C150 *)
(** A scatter plot draws all its rows, coloured (with a colour bar on request) iff z takes two values. *)
Lemma many_z_spec rows : many_z (map fin_row rows) = true <-> exists r s, In r rows /\ In s rows /\ snd r <> snd s.
Proof.
  destruct rows as [|r0 rows]; cbn [map many_z].
  - split; [discriminate|]. intros (r & s & [] & _).
  - rewrite existsb_exists. split.
    + intros (v & I & H). apply in_map_iff in I as (r & <- & I). cbn [fin_row snd] in H. change (snd (fin_row r0)) with (Fin (snd r0)) in H. change (snd (fin_row r)) with (Fin (snd r)) in H.
      rewrite fin_eqb, negb_true_iff in H. apply Reqb_false in H. exists r, r0. split; [right; exact I|]. split; [left; reflexivity|exact H].
    + intros (r & s & I & J & N).
      assert (K : exists t, In t rows /\ snd t <> snd r0).
      { destruct I as [<-|I]; [destruct J as [<-|J]; [congruence|exists s; split; [exact J|congruence]]|].
        destruct (Req_EM_T (snd r) (snd r0)) as [E|E]; [|exists r; auto]. destruct J as [<-|J]; [congruence|]. exists s. split; [exact J|congruence]. }
      destruct K as (t & I' & N'). exists (fin_row t). split; [apply in_map, I'|].
      change (snd (fin_row r0)) with (Fin (snd r0)). change (snd (fin_row t)) with (Fin (snd t)). rewrite fin_eqb, negb_true_iff. apply Reqb_false, N'.
Qed.
Definition two_values (rows : list (R * R * R)) : Prop := exists r s, In r rows /\ In s rows /\ snd r <> snd s.
Theorem C150_scatter_partial : forall rows ax cbar k,
  (two_values rows -> scatter_plot false (map fin_row rows) ax cbar k =
     if cbar then (rmap (fun p => (map fin_row rows, true, Some p)) (fst (place_cbar ax k)), snd (place_cbar ax k)) else (Ok (map fin_row rows, true, None), k))
  /\ (~ two_values rows -> scatter_plot false (map fin_row rows) ax cbar k = (Ok (map fin_row rows, false, None), k)).
Proof.
  intros rows ax cbar k. unfold scatter_plot. split; intros H.
  - rewrite (proj2 (many_z_spec rows) H). rewrite andb_true_r. destruct cbar; [destruct (place_cbar ax k)|]; reflexivity.
  - assert (E : many_z (map fin_row rows) = false) by (destruct (many_z (map fin_row rows)) eqn:E; [exfalso; apply H, many_z_spec, E|reflexivity]). rewrite E, andb_false_r. reflexivity.
Qed.
(** With clip_data=True it cannot be drawn. *)
Theorem C150_clipped_scatter_refuted : forall (rows : list (XR * XR * XR)) ax cbar k, scatter_plot true rows ax cbar k = (Err AttributeError, k).
Proof. reflexivity. Qed.
Example C150_ex : two_values [((1, 2), 3); ((0, 5), 4)].
Proof. exists ((1, 2), 3), ((0, 5), 4). cbn. split; [tauto|]. split; [tauto|]. lra. Qed.

(* ================================================================ C151 *)
(** Transposing swaps the labels together with the scales. *)
Theorem C151_transposed : forall s,
  drawn_axes false s = (s_x s, s_y s, s_logx s, s_logy s) /\ drawn_axes true s = (s_y s, s_x s, s_logy s, s_logx s)
  /\ drawn_axes true s = drawn_axes false (mkState (s_class s) (s_y s) (s_x s) (s_z s) (s_logy s) (s_logx s) (s_path s)).
Proof. intro s. repeat split. Qed.

(* ================================================================ C152 *)
(** The plotted indicator starts with the plasma data: exactly the rows not before the earliest plasma epoch. *)
Lemma fold_min_spec r : forall t, (fold_left Z.min r t <= t)%Z /\ (forall u, In u r -> (fold_left Z.min r t <= u)%Z) /\ (In (fold_left Z.min r t) (t :: r)).
Proof.
  induction r as [|u r IH]; intros t; cbn [fold_left]; [split; [lia|]; split; [intros _ []|left; reflexivity]|].
  destruct (IH (Z.min t u)) as (A & B & C). split; [lia|]. split; [intros v [<-|I]; [lia|apply B, I]|].
  destruct C as [C|C]; [|right; right; exact C]. destruct (Z.min_spec t u) as [[_ E]|[_ E]]; rewrite E in *; cbn; auto.
Qed.
Theorem C152_indicator_data : forall (V : Type) epochs (rows : list (Z * V)), epochs <> [] ->
  forall t v, In (t, v) (indicator_data (Some epochs) rows) <-> In (t, v) rows /\ exists e, In e epochs /\ (e <= t)%Z.
Proof.
  intros V [|e0 epochs] rows N t v; [congruence|]. cbn [indicator_data]. cbv zeta. rewrite filter_In. cbn [fst]. rewrite Z.leb_le.
  destruct (fold_min_spec epochs e0) as (A & B & C). split; intros [H1 H2]; (split; [exact H1|]).
  - exists (fold_left Z.min epochs e0). split; [exact C|exact H2].
  - destruct H2 as (e & [<-|I] & L); [lia|]. specialize (B e I). lia.
Qed.
Theorem C152_all_data : forall (V : Type) (rows : list (Z * V)), indicator_data None rows = rows.
Proof. reflexivity. Qed.
(** No indicator plot can be built: its x label is looked up in a module that does not define it. *)
Theorem C152_indicator_plot_refuted : forall name, new_indicator name = Err AttributeError.
Proof. reflexivity. Qed.
Example C152_ex : indicator_data (Some [7; 5]%Z) [(4, "a"); (5, "b"); (9, "c")]%Z = [(5, "b"); (9, "c")]%Z.
Proof. reflexivity. Qed.
