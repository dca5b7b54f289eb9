(** Theorems added after mutating the programs: the layout of the downloaded files, times that look missing, refusals of interpolation, the moments
    of a fitted log-normal, what make_fit returns for every class. *)
From Coq Require Import List String Ascii Bool Arith ZArith Reals Lra Lia.
From Verif Require Import Py PyStr Num Sort Activity FitCore FitCoreThms FitFuncs MoreFits Tools ToolsThms LabelTables Labels Download DownloadThms.
Import ListNotations.
Open Scope string_scope.
Open Scope list_scope.

(* ------------------------------------------------------------------ C175: the files of SILSO *)
(** How SILSO describes its files: date columns, then the total or the total, northern and southern numbers. *)
Definition dates (key : string) : list string := if existsb (String.eqb key) ["d"; "hd"] then ["year"; "month"; "day"; "year_fraction"] else if String.eqb key "y" then ["year"] else ["year"; "month"; "year_fraction"].
Definition numbers (key : string) : list string :=
  if existsb (String.eqb key) ["hd"; "hm"; "hm13"] then ["total_ssn"; "north_ssn"; "south_ssn"; "total_std"; "north_std"; "south_std"; "n_total"; "n_north"; "n_south"]
  else ["ssn"; "std"; "n_obs"].
Theorem C175_file_layout : forall key, In key ["d"; "m"; "m13"; "y"; "hd"; "hm"; "hm13"] -> own_columns key (dates key ++ numbers key ++ ["definitive"]).
Proof. intros key I. cbn [In] in I. repeat destruct I as [I|I]; try contradiction; subst key; reflexivity. Qed.
(** The date of a row is read only for the seven tables. *)
Theorem C174_other_keys : forall {T} {A : Arith T} (decimal : T -> Z) key (r : raw (T := T)), ~ In key ["d"; "m"; "m13"; "y"; "hd"; "hm"; "hm13"] -> row_time decimal key r = Err NotImplementedError.
Proof.
  intros T A decimal key r N. unfold row_time. destruct (mem_str key ["m13"; "m"; "hm"; "hm13"]) eqn:E1; [exfalso; apply N; apply mem_str_In in E1; cbn in *; tauto|].
  destruct (mem_str key ["d"; "hd"]) eqn:E2; [exfalso; apply N; apply mem_str_In in E2; cbn in *; tauto|]. destruct (String.eqb_spec key "y"); [exfalso; apply N; subst; cbn; tauto|reflexivity].
Qed.

(* ------------------------------------------------------------------ C177: times that look missing *)
Fixpoint firsts (seen l : list Z) : list Z := match l with [] => [] | t :: r => if existsb (Z.eqb t) seen then firsts seen r else t :: firsts (t :: seen) r end.
Definition marked (m : option Z) (t : Z) : XR := match m with Some k => if Z.eqb t k then NaN else Fin (IZR t) | None => Fin (IZR t) end.
Lemma same_marked m a b : same_ms (marked m a) (marked m b) = Z.eqb a b.
Proof.
  unfold marked. destruct m as [k|]; [|apply same_ms_Z]. destruct (Z.eqb_spec a k) as [->|Na], (Z.eqb_spec b k) as [->|Nb]; [rewrite Z.eqb_refl; reflexivity| | |apply same_ms_Z].
  - symmetry. rewrite (proj2 (Z.eqb_neq k b)) by congruence. reflexivity.
  - symmetry. rewrite (proj2 (Z.eqb_neq a k)) by congruence. reflexivity.
Qed.
(** Of the Lyman-alpha records with the same time the first is kept and no other record is lost, even at the time that is also the mark of missing values. *)
Theorem C177_times_that_look_missing : forall m recs, exists rows, download_lisird "Lalpha" (Some (Fin (IZR m))) (Some (Fin (IZR m))) recs = Ok rows /\ map l_t rows = firsts [] (map lr_ms recs).
Proof.
  intros m recs. unfold download_lisird, lisird_missing. cbn [mem_str existsb String.eqb Ascii.eqb Bool.eqb orb]. rewrite fin_eqb. unfold Reqb at 1. destruct (Req_EM_T (IZR m) (IZR m)) as [_|N]; [|congruence].
  cbn [bind]. eexists. split; [reflexivity|]. unfold verify_epoch. cbn [String.eqb Ascii.eqb Bool.eqb].
  assert (TN : forall t, to_nan (Some (Fin (IZR m))) (aofZ t) = marked (Some m) t).
  { intro t. unfold to_nan, marked. rewrite fin_ofZ, fin_eqb. unfold Reqb. destruct (Req_EM_T (IZR t) (IZR m)) as [E|E], (Z.eqb_spec t m) as [F|F]; try reflexivity; [apply eq_IZR in E; contradiction|subst; contradiction]. }
  assert (G : forall recs seen, map l_t (first_of_each (map (marked (Some m)) seen) (map (fun r : lrec => mklrow (lr_ms r) (to_nan (Some (Fin (IZR m))) (aofZ (lr_ms r))) (fun c => to_nan (Some (Fin (IZR m))) (lr_v r c))) recs)) = firsts seen (map lr_ms recs));
    [|exact (G recs [])].
  clear recs. induction recs as [|r recs IH]; intro seen; [reflexivity|].
  cbn [map first_of_each l_ms]. rewrite TN. replace (existsb (same_ms (marked (Some m) (lr_ms r))) (map (marked (Some m)) seen)) with (existsb (Z.eqb (lr_ms r)) seen).
  - cbn [firsts]. destruct (existsb (Z.eqb (lr_ms r)) seen); [apply IH|]. cbn [map l_t]. f_equal. apply (IH (lr_ms r :: seen)).
  - clear IH. induction seen as [|z seen IHs]; [reflexivity|]. cbn [map existsb]. rewrite same_marked, IHs. reflexivity.
Qed.
(** Interpolating: KeyError for an unknown indicator or a table without its column. *)
Theorem C178_refusals : forall spline key cols data target,
  (~ In key ["Lalpha"; "CaK"; "f107-penticton"; "f107-noaa"; "MgII"] -> lisird_interpolate spline key cols data target = Err KeyError) /\
  (forall c, In (key, c) [("Lalpha", "irradiance"); ("MgII", "mg_index"); ("CaK", "emdx"); ("f107-noaa", "adjusted_flux"); ("f107-penticton", "adjusted_flux")] -> ~ In c cols ->
     lisird_interpolate spline key cols data target = Err KeyError).
Proof.
  intros spline key cols data target. split.
  - intro N. unfold lisird_interpolate. destruct (assoc key lisird_column) eqn:E; [|reflexivity]. exfalso. apply N. unfold lisird_column in E. cbn [assoc] in E.
    repeat match type of E with context [String.eqb ?k ?a] => destruct (String.eqb_spec k a); [subst; cbn; tauto|] end. discriminate.
  - intros c I N. unfold lisird_interpolate. assert (E : assoc key lisird_column = Some c).
    { cbn [In] in I. repeat destruct I as [I|I]; try contradiction; (assert (Q1 := f_equal fst I); assert (Q2 := f_equal snd I); cbn [fst snd] in Q1, Q2; subst key c; reflexivity). }
    rewrite E. destruct (mem_str c cols) eqn:M; [apply mem_str_In in M; contradiction|reflexivity].
Qed.
Example Tight6_ex : In "hd" ["d"; "m"; "m13"; "y"; "hd"; "hm"; "hm13"] /\ ~ In "x" ["d"; "m"; "m13"; "y"; "hd"; "hm"; "hm13"] /\ ~ In "irradiance" ["mg_index"].
Proof. split; [cbn; tauto|]. split; cbn; intuition discriminate. Qed.

(* ------------------------------------------------------------------ C93: a fitted log-normal *)
Open Scope R_scope.
Theorem C93_fitted_lognormal : forall m s, exists mu sigma, ln_normal_parameters (Fin m) (Fin s) = (Fin mu, Fin sigma) /\
    0 < mu /\ 0 <= sigma /\ ln mu = m + s ^ 2 / 2 /\ sigma ^ 2 = mu ^ 2 * (exp (s ^ 2) - 1) /\ (sigma = 0 <-> s = 0).
Proof.
  intros m s. destruct (C93_lognormal_moments m s) as (mu & sigma & E1 & E2 & R). exists mu, sigma. split; [|exact R].
  unfold ln_normal_parameters. cbv zeta. rewrite <- E1, <- E2. reflexivity.
Qed.

(* ------------------------------------------------------------------ C48: what make_fit returns *)
(** Every class but Gaussian and GaussianNormalized returns the exception for too few observations when asked to. *)
Theorem C48_returned_by_the_others : forall lsq (o : ffobj (T := XR)) k a b g c0,
  In (ff_class o) [Line; LineXintercept; GaussianLn; Moyal; PowerLaw; PowerLawPlusC; PowerLawOffCenter; Exponential; ExponentialPlusC; ExponentialCDF c0; HeavySide g; TwoLine a; HingeMin a; HingeMax a;
     HingeAtPoint a; HingeSaturation a b; Saturation a b; GaussianPlusHeavySide]
  \/ GaussianTimesHeavySide (Some a) = Ok (ff_class o) \/ GaussianTimesHeavySidePlusHeavySide (Some a) = Ok (ff_class o) ->
  ~ enough o -> fst (make_fit lsq o true k) = Returned (Some InsufficientDataError).
Proof.
  intros lsq o k a b g c0 H N. assert (D : c_discards (ff_class o) = false).
  { destruct H as [I|[E|E]].
    - cbn [In] in I. repeat destruct I as [I|I]; try contradiction; rewrite <- I; reflexivity.
    - unfold GaussianTimesHeavySide in E. assert (Q : forall (u v : ffclass (T := XR)), Ok u = Ok v -> u = v) by congruence. apply Q in E. rewrite <- E. reflexivity.
    - unfold GaussianTimesHeavySidePlusHeavySide in E. assert (Q : forall (u v : ffclass (T := XR)), Ok u = Ok v -> u = v) by congruence. apply Q in E. rewrite <- E. reflexivity. }
  unfold make_fit, base_make_fit. unfold enough in N. replace (Nat.leb (List.length (c_args (ff_class o))) (nobs (ff_obs o))) with false by (symmetry; apply Nat.leb_gt; lia). cbn [negb]. rewrite D. reflexivity.
Qed.
Example C48_returned_ex : exists (o : ffobj (T := XR)), ff_class o = HingeSaturation (Fin 1) (Fin 2) /\ ~ enough o.
Proof.
  exists {| ff_class := HingeSaturation (Fin 1) (Fin 2); ff_obs := {| u_used := {| o_x := [Fin 1]; o_y := [Fin 1]; o_w := None |}; u_raw := {| o_x := [Fin 1]; o_y := [Fin 1]; o_w := None |}; u_mask := [true] |}; ff_popt := None; ff_psigma := None |}.
  split; [reflexivity|]. unfold enough. cbn. lia.
Qed.
