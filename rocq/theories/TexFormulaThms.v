(** C101 for the texts themselves: a reader of TeX mathematics and the meaning of what it reads. The formulas reported by the
    fit functions ([TexFormula.v]) are read and compared with the functions that are fitted. *)
From Coq Require Import Reals Lra Lia List String Ascii Bool Arith.
From Verif Require Import Py PyStr Num FitCore FitFuncs MoreFits FitFuncsThms FitShapeThms MoreFitsThms TexInfo TexFormula.
Import ListNotations.
Open Scope string_scope.
Open Scope list_scope.
Open Scope R_scope.

(* ================================================================ specification: reading TeX *)
(** A formula: numbers, names, the operations, powers, named functions, the smaller and the larger of two. *)
Inductive ex :=
| ENum (n : nat) | EVar (name : string) | EPi
| EAdd (a b : ex) | ESub (a b : ex) | EMul (a b : ex) | EDiv (a b : ex) | ENeg (a : ex) | EPow (a b : ex)
| EFun (f : string) (a : ex) | EMin (a b : ex) | EMax (a b : ex).

(** Tokens: a command (backslash and letters, or backslash and one other character) or a character. *)
Inductive tok := TC (cmd : string) | TCh (c : ascii).
Definition is_letter (c : ascii) : bool :=
  let n := nat_of_ascii c in (Nat.leb 65 n && Nat.leb n 90) || (Nat.leb 97 n && Nat.leb n 122).
Definition is_digit (c : ascii) : bool := let n := nat_of_ascii c in Nat.leb 48 n && Nat.leb n 57.
Definition bslash : ascii := "\"%char.
Fixpoint tokens (s : string) (cmd : option string) : list tok :=
  let begin (c : ascii) (r : string) :=
    if Ascii.eqb c bslash then tokens r (Some "") else if Ascii.eqb c " " then tokens r None else TCh c :: tokens r None in
  match s with
  | "" => match cmd with Some w => [TC w] | None => [] end
  | String c r =>
      match cmd with
      | None => begin c r
      | Some w =>
          if is_letter c then tokens r (Some (w ++ String c "")%string)
          else match w with
               | "" => TC (String c "") :: tokens r None
               | _ => TC w :: begin c r
               end
      end
  end.
(** Commands that only change the spacing or the size of brackets. *)
Definition layout (t : tok) : bool :=
  match t with TC w => mem_str w ["left"; "right"; ","; ";"; ":"; "!"] | TCh _ => false end.
Definition read_tokens (s : string) : list tok := filter (fun t => negb (layout t)) (tokens s None).

Definition greek (w : string) : bool := mem_str w ["mu"; "sigma"; "theta"].
Definition starts_factor (t : tok) : bool :=
  match t with
  | TCh c => is_letter c || is_digit c || mem_str (String c "") ["("; "["; "{"]
  | TC w => greek w || mem_str w ["pi"; "frac"; "sqrt"; "exp"; "ln"; "arctan"; "min"; "max"]
  end.
Definition closing (c : ascii) : ascii := if Ascii.eqb c "(" then ")" else if Ascii.eqb c "[" then "]" else "}".
Fixpoint digits_of (ts : list tok) (acc : nat) : nat * list tok :=
  match ts with
  | TCh c :: r => if is_digit c then digits_of r (10 * acc + (nat_of_ascii c - 48)) else (acc, ts)
  | _ => (acc, ts)
  end.
Definition eat (c : ascii) (ts : list tok) : option (list tok) :=
  match ts with TCh d :: r => if Ascii.eqb c d then Some r else None | _ => None end.

(** Sums of products of factors; juxtaposition is multiplication; [e^{...}] is the exponential function. The number
    bounds the depth of the text. *)
Fixpoint read_sum (n : nat) (ts : list tok) {struct n} : option (ex * list tok) :=
  match n with
  | O => None
  | S n =>
      match ts with
      | TCh "-" :: r => match read_product n r with Some (a, r') => more_terms n (ENeg a) r' | None => None end
      | _ => match read_product n ts with Some (a, r') => more_terms n a r' | None => None end
      end
  end
with more_terms (n : nat) (acc : ex) (ts : list tok) {struct n} : option (ex * list tok) :=
  match n with
  | O => None
  | S n =>
      match ts with
      | TCh "+" :: r => match read_product n r with Some (b, r') => more_terms n (EAdd acc b) r' | None => None end
      | TCh "-" :: r => match read_product n r with Some (b, r') => more_terms n (ESub acc b) r' | None => None end
      | _ => Some (acc, ts)
      end
  end
with read_product (n : nat) (ts : list tok) {struct n} : option (ex * list tok) :=
  match n with
  | O => None
  | S n => match read_factor n ts with Some (a, r') => more_factors n a r' | None => None end
  end
with more_factors (n : nat) (acc : ex) (ts : list tok) {struct n} : option (ex * list tok) :=
  match n with
  | O => None
  | S n =>
      match ts with
      | TC w :: r =>
          if mem_str w ["cdot"; "times"] then
            match read_factor n r with Some (b, r') => more_factors n (EMul acc b) r' | None => None end
          else if starts_factor (TC w) then
            match read_factor n ts with Some (b, r') => more_factors n (EMul acc b) r' | None => None end
          else Some (acc, ts)
      | t :: _ =>
          if starts_factor t then
            match read_factor n ts with Some (b, r') => more_factors n (EMul acc b) r' | None => None end
          else Some (acc, ts)
      | [] => Some (acc, ts)
      end
  end
with read_factor (n : nat) (ts : list tok) {struct n} : option (ex * list tok) :=
  match n with
  | O => None
  | S n =>
      match read_atom n ts with
      | Some (a, TCh "^" :: r) => match read_argument n r with Some (b, r') => Some (EPow a b, r') | None => None end
      | x => x
      end
  end
with read_argument (n : nat) (ts : list tok) {struct n} : option (ex * list tok) :=
  match n with
  | O => None
  | S n =>
      match ts with
      | TCh "{" :: r => read_atom n ts
      | TCh c :: r => if is_digit c then Some (ENum (nat_of_ascii c - 48), r)
                      else if is_letter c then Some (EVar (String c ""), r) else None
      | _ => None
      end
  end
with read_atom (n : nat) (ts : list tok) {struct n} : option (ex * list tok) :=
  match n with
  | O => None
  | S n =>
      match ts with
      | TCh "e" :: TCh "^" :: r => match read_argument n r with Some (a, r') => Some (EFun "exp" a, r') | None => None end
      | TCh "H" :: TCh "(" :: r =>
          match read_atom n (TCh "(" :: r) with Some (a, r') => Some (EFun "H" a, r') | None => None end
      | TCh c :: r =>
          if is_digit c then let (v, r') := digits_of ts 0 in Some (ENum v, r')
          else if mem_str (String c "") ["("; "["; "{"] then
            match read_sum n r with
            | Some (a, r') => match eat (closing c) r' with Some r'' => Some (a, r'') | None => None end
            | None => None
            end
          else if is_letter c then
            match r with
            | TCh "_" :: TCh d :: r' => if is_letter d || is_digit d then Some (EVar (String c (String "_" (String d ""))), r') else None
            | _ => Some (EVar (String c ""), r)
            end
          else None
      | TC w :: r =>
          if greek w then Some (EVar w, r)
          else if String.eqb w "pi" then Some (EPi, r)
          else if String.eqb w "frac" then
            match read_argument n r with
            | Some (a, r') => match read_argument n r' with Some (b, r'') => Some (EDiv a b, r'') | None => None end
            | None => None
            end
          else if mem_str w ["sqrt"; "exp"; "ln"; "arctan"] then
            match read_atom n r with Some (a, r') => Some (EFun w a, r') | None => None end
          else if mem_str w ["min"; "max"] then
            match eat "(" r with
            | Some r1 =>
                match read_sum n r1 with
                | Some (a, r2) =>
                    match eat "," r2 with
                    | Some r3 =>
                        match read_sum n r3 with
                        | Some (b, r4) => match eat ")" r4 with
                                          | Some r5 => Some ((if String.eqb w "min" then EMin a b else EMax a b), r5)
                                          | None => None
                                          end
                        | None => None
                        end
                    | None => None
                    end
                | None => None
                end
            | None => None
            end
          else None
      | [] => None
      end
  end.
Definition read_all (ts : list tok) : option ex :=
  match read_sum (20 + 20 * List.length ts) ts with Some (a, []) => Some a | _ => None end.

(** A line: an equation, for all x or (before a colon) for x on one side of a border. The left-hand side is the function, or
    a name. A line without '=' continues the one before. *)
Record equation := mkEq { e_cond : option (ex * bool * ex); e_lhs : option ex; e_rhs : ex }.  (* true: smaller *)
Fixpoint split_at (c : ascii) (ts : list tok) : option (list tok * list tok) :=
  match ts with
  | [] => None
  | TCh d :: r => if Ascii.eqb c d then Some ([], r)
                  else match split_at c r with Some (a, b) => Some (TCh d :: a, b) | None => None end
  | t :: r => match split_at c r with Some (a, b) => Some (t :: a, b) | None => None end
  end.
Definition read_cond (ts : list tok) : option (ex * bool * ex) :=
  match split_at "<" ts, split_at ">" ts with
  | Some (a, b), None => match read_all a, read_all b with Some p, Some q => Some (p, true, q) | _, _ => None end
  | None, Some (a, b) => match read_all a, read_all b with Some p, Some q => Some (p, false, q) | _, _ => None end
  | _, _ => None
  end.
Definition read_lhs (ts : list tok) : option (option ex) :=
  match ts with
  | TCh "f" :: TCh "(" :: _ => Some None
  | _ => match read_all ts with Some a => Some (Some a) | None => None end
  end.
Definition read_equation (ts : list tok) : option equation :=
  let finish cond ts :=
    match split_at "=" ts with
    | Some (l, r) => match read_lhs l, read_all r with Some l', Some r' => Some (mkEq cond l' r') | _, _ => None end
    | None => None
    end in
  match split_at ":" ts with
  | Some (c, ts') => match read_cond c with Some c' => finish (Some c') ts' | None => None end
  | None => finish None ts
  end.
Fixpoint continue_lines (ls : list string) : list string :=
  match ls with
  | [] => []
  | l :: r => match continue_lines r with
              | l' :: r' => if has_char "=" l' then l :: l' :: r' else (l ++ l')%string :: r'
              | [] => [l]
              end
  end.
Fixpoint all_some {X} (l : list (option X)) : option (list X) :=
  match l with
  | [] => Some []
  | Some x :: r => match all_some r with Some r' => Some (x :: r') | None => None end
  | None :: _ => None
  end.
Definition read (s : string) : option (list equation) :=
  all_some (map (fun l => read_equation (read_tokens l)) (continue_lines (split_on newline s))).

(* ---------------------------------------------------------------- meaning *)
(** None: not defined. H is the step from 0 to 1 at 0, where it has no value. *)
Definition opt2 (f : R -> R -> option R) (a b : option R) : option R :=
  match a, b with Some x, Some y => f x y | _, _ => None end.
Fixpoint meaning (env : string -> R) (e : ex) : option R :=
  match e with
  | ENum n => Some (INR n)
  | EVar v => Some (env v)
  | EPi => Some PI
  | EAdd a b => opt2 (fun x y => Some (x + y)) (meaning env a) (meaning env b)
  | ESub a b => opt2 (fun x y => Some (x - y)) (meaning env a) (meaning env b)
  | EMul a b => opt2 (fun x y => Some (x * y)) (meaning env a) (meaning env b)
  | EDiv a b => opt2 (fun x y => if Req_EM_T y 0 then None else Some (x / y)) (meaning env a) (meaning env b)
  | ENeg a => match meaning env a with Some x => Some (- x) | None => None end
  | EPow a (ENum n) => match meaning env a with Some x => Some (x ^ n) | None => None end
  | EPow a b => opt2 (fun x y => if Rlt_dec 0 x then Some (Rpower x y) else None) (meaning env a) (meaning env b)
  | EFun f a =>
      match meaning env a with
      | None => None
      | Some x =>
          if String.eqb f "exp" then Some (exp x)
          else if String.eqb f "ln" then (if Rlt_dec 0 x then Some (ln x) else None)
          else if String.eqb f "sqrt" then (if Rle_dec 0 x then Some (sqrt x) else None)
          else if String.eqb f "arctan" then Some (atan x)
          else if String.eqb f "H" then (if Rlt_dec x 0 then Some 0 else if Rlt_dec 0 x then Some 1 else None)
          else None
      end
  | EMin a b => opt2 (fun x y => Some (Rmin x y)) (meaning env a) (meaning env b)
  | EMax a b => opt2 (fun x y => Some (Rmax x y)) (meaning env a) (meaning env b)
  end.
(** The index i stands for 1 and for 2. *)
Definition at_index (i : ascii) (env : string -> R) (v : string) : R :=
  match v with
  | String c (String "_" (String "i" "")) => env (String c (String "_" (String i "")))
  | _ => env v
  end.
Definition cond_met (env : string -> R) (c : option (ex * bool * ex)) : Prop :=
  match c with
  | None => True
  | Some (a, lt, b) => exists x y, meaning env a = Some x /\ meaning env b = Some y /\ if lt : bool then x < y else y < x
  end.
(** The equation holds if the function has the value [y]. *)
Definition equation_holds (env : string -> R) (y : R) (e : equation) : Prop :=
  cond_met env (e_cond e) ->
  match e_lhs e with
  | None => meaning env (e_rhs e) = Some y
  | Some l => exists v, meaning env l = Some v /\ meaning env (e_rhs e) = Some v
  end.
(** The text says that, with the names meaning [env], the function has the value [y]. *)
Definition says (s : string) (env : string -> R) (y : R) : Prop :=
  exists eqs, read s = Some eqs /\ eqs <> [] /\
    forall e, In e eqs -> equation_holds (at_index "1" env) y e /\ equation_holds (at_index "2" env) y e.


(** The parameters of the classes as the formulas write them: x0 is written x_0. *)
Definition subscripted (a : string) : string :=
  if greek a then a else match a with String c (String d "") => String c (String "_" (String d "")) | _ => a end.
(** The class's function at the values that [env] gives its parameters and x. *)
Definition fitted (C : ffclass (T := XR)) (env : string -> R) : XR :=
  c_fun C (map (fun a => Fin (env (subscripted a))) (c_args C)) (Fin (env "x")).
(** Its formula says that the function has the value [y]: for some values of the names that are neither x nor parameters. *)
Definition gives (s : string) (C : ffclass (T := XR)) (env : string -> R) (y : R) : Prop :=
  exists env', env' "x" = env "x" /\ (forall a, In a (c_args C) -> env' (subscripted a) = env (subscripted a)) /\ says s env' y.

(* ---------------------------------------------------------------- proofs *)
Lemma says_read s env y eqs : read s = Some eqs -> eqs <> [] ->
  (says s env y <-> forall e, In e eqs -> equation_holds (at_index "1" env) y e /\ equation_holds (at_index "2" env) y e).
Proof.
  intros E N. unfold says. split.
  - intros (eqs' & E' & _ & H). rewrite E in E'. injection E' as <-. exact H.
  - intros H. exists eqs. auto.
Qed.
Lemma says_one s env y r : read s = Some [mkEq None None r] -> meaning (at_index "1" env) r = meaning env r -> meaning (at_index "2" env) r = meaning env r ->
  (says s env y <-> meaning env r = Some y).
Proof.
  intros E A B. rewrite (says_read s env y _ E) by discriminate. split.
  - intros H. destruct (H _ (or_introl eq_refl)) as [H1 _]. rewrite <- A. apply H1. exact I.
  - intros H e [<-|[]]. unfold equation_holds. cbn [e_cond e_lhs e_rhs]. rewrite A, B. auto.
Qed.
Lemma inr2 : INR 2 = 2. Proof. reflexivity. Qed.
Lemma inr1 : INR 1 = 1. Proof. reflexivity. Qed.
Lemma some_inj (a b : R) : a = b <-> Some a = Some b.
Proof. split; [intros ->; reflexivity|intros E; injection E as E; exact E]. Qed.
Lemma fin_eq_iff (a b : R) : a = b <-> Fin a = Fin b.
Proof. split; [intros ->; reflexivity|apply Fin_inj]. Qed.
Lemma val_eq (a b y : R) : a = b -> (Some a = Some y <-> Fin b = Fin y).
Proof. intros ->. rewrite <- some_inj, <- fin_eq_iff. tauto. Qed.
Ltac one := match goal with |- context [says ?s ?env ?y] => let r := eval vm_compute in (read s) in
   match r with Some [mkEq None None ?e] => rewrite (says_one s env y e) by first [vm_compute; reflexivity|reflexivity] end end.
Ltac means := cbn [meaning opt2 String.eqb Ascii.eqb Bool.eqb]; rewrite ?inr1, ?inr2.
Lemma sqrt_2pi_nz s : s <> 0 -> sqrt (2 * PI) * s <> 0.
Proof. intros H. apply Rmult_integral_contrapositive_currified; [pose proof sqrt_2pi; lra|exact H]. Qed.
Ltac nz := cbn [opt2]; match goal with |- context [Req_EM_T ?a 0] => destruct (Req_EM_T a 0) as [ZZ|_]; [exfalso; revert ZZ; first [lra|assumption|apply sqrt_2pi_nz; assumption]|]; cbn [opt2] end.
Ltac cls := unfold fitted, Gaussian, GaussianNormalized, Line, LineXintercept, PowerLaw, PowerLawPlusC, PowerLawOffCenter, Exponential, ExponentialPlusC, ExponentialCDF, HeavySide, GaussianPlusHeavySide, TwoLine, HingeMin, HingeMax, HingeAtPoint, HingeSaturation, Saturation, GaussianLn, Moyal; cbn [c_args c_fun map ap1 ap2 ap3 ap4 ap5 ap6]; 
  change (subscripted "mu") with "mu"; change (subscripted "sigma") with "sigma"; change (subscripted "theta") with "theta";
  repeat match goal with |- context [subscripted (String ?c ?d)] => let r := eval vm_compute in (subscripted (String c d)) in change (subscripted (String c d)) with r end.

Lemma half_sq u : exp (- (1 / 2 * u ^ 2)) = exp (- u ^ 2 / 2). Proof. f_equal. field. Qed.
(** The Gaussians. *)
Theorem C101_text_of_gaussian :
  forall env y, env "sigma" <> 0 -> (says tex_Gaussian env y <-> fitted Gaussian env = Fin y).
Proof.
  intros env y NZ. one. means. repeat nz. cls. rewrite gaussian_fin by exact NZ. apply val_eq. unfold bell. rewrite half_sq. reflexivity.
Qed.
Print Assumptions C101_text_of_gaussian.
Theorem C101_text_of_gaussian_normalized :
  forall env y, env "sigma" <> 0 -> (says tex_GaussianNormalized env y <-> fitted GaussianNormalized env = Fin y).
Proof.
  intros env y NZ. one. means. pose proof PI_RGT_0. destruct (Rle_dec 0 (2 * PI)) as [_|X]; [|elim X; lra]. cbn [opt2]. repeat nz. cls.
  rewrite C55_gaussian_normalized, gaussian_fin by exact NZ. apply val_eq. unfold bell. rewrite half_sq. reflexivity.
Qed.
Print Assumptions C101_text_of_gaussian_normalized.
(** Lines. *)
Theorem C101_text_of_line : forall env y, says tex_Line env y <-> fitted Line env = Fin y.
Proof. intros env y. one. means. cls. unfold line. rewrite fin_mul, fin_add. apply val_eq. reflexivity. Qed.
Print Assumptions C101_text_of_line.
Theorem C101_text_of_line_through_x0 : forall env y, says tex_LineXintercept env y <-> fitted LineXintercept env = Fin y.
Proof. intros env y. one. means. cls. unfold line_xint. rewrite fin_sub, fin_mul. apply val_eq. reflexivity. Qed.
Print Assumptions C101_text_of_line_through_x0.
(** Power laws, where the power is defined. *)
Theorem C101_text_of_power_law : forall env y, 0 < env "x" -> (says tex_PowerLaw env y <-> fitted PowerLaw env = Fin y).
Proof.
  intros env y P. one. means. destruct (Rlt_dec 0 (env "x")) as [_|X]; [|contradiction]. cbn [opt2]. cls. unfold power_law.
  rewrite fin_pow, fin_mul by exact P. apply val_eq. reflexivity.
Qed.
Print Assumptions C101_text_of_power_law.
Theorem C101_text_of_power_law_plus_c : forall env y, 0 < env "x" -> (says tex_PowerLawPlusC env y <-> fitted PowerLawPlusC env = Fin y).
Proof.
  intros env y P. one. means. destruct (Rlt_dec 0 (env "x")) as [_|X]; [|contradiction]. cbn [opt2]. cls. unfold power_law_plus_c.
  rewrite fin_pow, fin_mul, fin_add by exact P. apply val_eq. reflexivity.
Qed.
Print Assumptions C101_text_of_power_law_plus_c.
Theorem C101_text_of_power_law_off_center :
  forall env y, env "x_0" < env "x" -> (says tex_PowerLawOffCenter env y <-> fitted PowerLawOffCenter env = Fin y).
Proof.
  intros env y P. one. means. destruct (Rlt_dec 0 (env "x" - env "x_0")) as [_|X]; [|lra]. cbn [opt2]. cls. unfold power_law_off_center.
  rewrite fin_sub, fin_pow, fin_mul by lra. apply val_eq. reflexivity.
Qed.
Print Assumptions C101_text_of_power_law_off_center.
(** Exponentials. The limit of the cumulative one is the attribute [y0], written A. *)
Theorem C101_text_of_exponential : forall env y, says tex_Exponential env y <-> fitted Exponential env = Fin y.
Proof. intros env y. one. means. cls. rewrite exponential_fin. apply val_eq. reflexivity. Qed.
Print Assumptions C101_text_of_exponential.
Theorem C101_text_of_exponential_plus_c : forall env y, says tex_ExponentialPlusC env y <-> fitted ExponentialPlusC env = Fin y.
Proof.
  intros env y. one. means. cls. unfold exponential_plus_c. rewrite fin_mul, fin_opp, fin_exp, fin_mul, fin_add. apply val_eq. reflexivity.
Qed.
Print Assumptions C101_text_of_exponential_plus_c.
Theorem C101_text_of_exponential_cdf :
  forall env y, says tex_ExponentialCDF env y <-> fitted (ExponentialCDF (Some (Fin (env "A")))) env = Fin y.
Proof.
  intros env y. one. means. unfold ExponentialCDF. cls. unfold exponential_cdf. rewrite fin_mul, fin_opp, fin_exp, fin_ofZ, fin_sub, fin_mul. apply val_eq. reflexivity.
Qed.
Print Assumptions C101_text_of_exponential_cdf.
(** Steps, on either side of the step. *)
Ltac side := match goal with H : ?e "x" <> ?e "x_0" |- _ => destruct (Rtotal_order (e "x") (e "x_0")) as [LT|[EQ|GT]]; [|contradiction|] end.
Ltac steps := repeat match goal with
  | |- context [Rlt_dec ?a ?b] => destruct (Rlt_dec a b) as [?X|?X]; [try (exfalso; lra)|try (exfalso; lra)]; cbn [opt2] end.
Theorem C101_text_of_step :
  forall g env y, env "x" <> env "x_0" -> (says tex_HeavySide env y <-> fitted (HeavySide g) env = Fin y).
Proof.
  intros g env y N. assert (F : fitted (HeavySide g) env = Fin (if Rlt_dec (env "x") (env "x_0") then env "y_0" + env "y_1" else env "y_0")).
  { unfold HeavySide. cls. unfold heavy_side. rewrite fin_sub. side.
    - rewrite hs_pos, fin_mul, fin_add by lra. steps. f_equal. ring.
    - rewrite hs_neg, fin_mul, fin_add by lra. steps. f_equal. ring. }
  rewrite F, <- fin_eq_iff. let r := eval vm_compute in (read tex_HeavySide) in assert (E : read tex_HeavySide = r) by (vm_compute; reflexivity).
  rewrite (says_read _ _ _ _ E) by discriminate. split.
  - intros H. side; steps.
    + destruct (H _ (or_intror (or_introl eq_refl))) as [H1 _]. unfold equation_holds in H1. cbn [e_cond e_lhs e_rhs cond_met] in H1.
      assert (Some (env "y_0" + env "y_1") = Some y) as K by (apply H1; eexists _, _; split; [reflexivity|split; [reflexivity|exact LT]]). injection K as K. exact K.
    + destruct (H _ (or_intror (or_intror (or_introl eq_refl)))) as [H1 _]. unfold equation_holds in H1. cbn [e_cond e_lhs e_rhs cond_met] in H1.
      assert (Some (env "y_0") = Some y) as K by (apply H1; eexists _, _; split; [reflexivity|split; [reflexivity|exact GT]]). injection K as K. exact K.
  - intros <- e [<-|[<-|[<-|[]]]]; unfold equation_holds; cbn [e_cond e_lhs e_rhs cond_met].
    + means. cbn [at_index]. side; steps; split; intros _; f_equal; ring.
    + split; intros (a & b & EA & EB & L); cbn in EA, EB; injection EA as <-; injection EB as <-; steps; reflexivity.
    + split; intros (a & b & EA & EB & L); cbn in EA, EB; injection EA as <-; injection EB as <-; steps; reflexivity.
Qed.
Print Assumptions C101_text_of_step.
Theorem C101_text_of_gaussian_plus_step :
  forall env y, env "x" <> env "x_0" -> env "sigma" <> 0 -> (says tex_GaussianPlusHeavySide env y <-> fitted GaussianPlusHeavySide env = Fin y).
Proof.
  intros env y N NZ. one. means. repeat nz. cls. unfold gaussian_plus_heavy_side. rewrite gaussian_fin, fin_sub by exact NZ. rewrite half_sq.
  side; steps; [rewrite hs_pos by lra|rewrite hs_neg by lra]; rewrite fin_mul, !fin_add; apply val_eq; reflexivity.
Qed.
Print Assumptions C101_text_of_gaussian_plus_step.
Theorem C101_text_of_truncated_gaussian :
  forall g C env y, GaussianTimesHeavySide g = Ok C -> env "x" <> env "x_0" -> env "sigma" <> 0 ->
  (says tex_GaussianTimesHeavySide env y <-> fitted C env = Fin y).
Proof.
  intros g C env y EC N NZ. unfold GaussianTimesHeavySide in EC. destruct g as [g|]; [|discriminate]. apply ok_eq in EC. subst C.
  one. means. repeat nz. cls. unfold gaussian_times_heavy_side. rewrite gaussian_fin, fin_sub by exact NZ. rewrite half_sq.
  side; steps; [rewrite hs_neg by lra|rewrite hs_pos by lra]; rewrite fin_mul; apply val_eq; reflexivity.
Qed.
Print Assumptions C101_text_of_truncated_gaussian.
Theorem C101_text_of_plateau_and_gaussian :
  forall g C env y, GaussianTimesHeavySidePlusHeavySide g = Ok C -> env "x" <> env "x_0" -> env "sigma" <> 0 ->
  (says tex_GaussianTimesHeavySidePlusHeavySide env y <-> fitted C env = Fin y).
Proof.
  intros g C env y EC N NZ. unfold GaussianTimesHeavySidePlusHeavySide in EC. destruct g as [g|]; [|discriminate]. apply ok_eq in EC. subst C.
  one. means. repeat nz. cls. unfold gaussian_times_plus_heavy_side. rewrite gaussian_fin, !fin_sub by exact NZ. rewrite half_sq.
  side; steps; [rewrite (hs_neg (_ - _)), hs_pos by lra|rewrite (hs_pos (_ - _)), hs_neg by lra]; rewrite !fin_mul, fin_add; apply val_eq; reflexivity.
Qed.
Print Assumptions C101_text_of_plateau_and_gaussian.

