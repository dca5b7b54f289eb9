(** The numeric methods of Plasma and Ion (core/plasma.py, core/ions.py), row by row.

    Every method works row-wise on tables that share one index, so a method is modelled by the column
    functions it returns: a column is a function of the row. [Total f] is the Series returned for a
    single species argument, [Each cols] the frame with one column per species returned for several. *)
From Coq Require Import List String Ascii Bool Arith ZArith.
From Verif Require Import Py PyStr Sort Num Species Frame.
Import ListNotations.
Open Scope string_scope.
Open Scope py_scope.

(** core/units_constants.py 20-122: the physical constants (scipy.constants), as parameters. *)
Record consts (T : Type) := mkConsts {
  c_mp : T; c_me : T; c_ma : T;                  (* masses [kg], 78-89 *)
  c_ma_mp : T; c_me_mp : T;                      (* mass ratios, 39-50 *)
  c_up : T; c_ua : T; c_ue : T;                  (* masses [u], 91-102 *)
  c_e : T;                                       (* elementary charge *)
  c_kbJ : T; c_kbeV : T;                         (* 32-35 *)
  c_mu0 : T; c_eps0 : T;                         (* 20-30 *)
}.
Arguments mkConsts {T}.
Arguments c_mp {T}. Arguments c_me {T}. Arguments c_ma {T}. Arguments c_ma_mp {T}.
Arguments c_me_mp {T}. Arguments c_up {T}. Arguments c_ua {T}. Arguments c_ue {T}.
Arguments c_e {T}. Arguments c_kbJ {T}. Arguments c_kbeV {T}. Arguments c_mu0 {T}. Arguments c_eps0 {T}.

(** the species the tables of core/units_constants.py 39-102 know *)
Inductive kind := KProton | KAlpha | KElectron.
(** core/units_constants.py 39-102: the keys of the per-species tables (the same in all of them). *)
Definition species_kind (s : string) : option kind :=
  if mem_str s ["p"; "p1"; "p2"; "pm"; "p_bimax"] then Some KProton
  else if mem_str s ["a"; "a1"; "a2"; "a_bimax"] then Some KAlpha
  else if String.eqb s "e" then Some KElectron
  else None.
(** [Series.loc[s]] on those tables: KeyError for an unknown species. core/units_constants.py 39-102, looked up in core/plasma.py and core/ions.py *)
Definition get_kind (s : string) : result kind :=
  match species_kind s with Some k => Ok k | None => Err KeyError end.

(** What a method returns. a Series, or a DataFrame with one column per species: the two result shapes of core/plasma.py 800-1725 *)
Inductive quantity (T : Type) :=
| Total (f : row T -> T)
| Each (cols : list (string * (row T -> T))).
Arguments Total {T}. Arguments Each {T}.

(** a core/vector.py 19-90 Vector of a row; one, or one per species (core/plasma.py 1002-1035) *)
Definition vec (T : Type) : Type := T * T * T.
(** a core/vector.py 19-90 Vector of a row; one, or one per species (core/plasma.py 1002-1035) *)
Inductive vquantity (T : Type) :=
| VOne (f : row T -> vec T)
| VEach (cols : list (string * (row T -> vec T))).
Arguments VOne {T}. Arguments VEach {T}.

(** arithmetic on such results, as pandas broadcasts it in core/plasma.py 800-1725 *)
Definition qmap {T} (g : (row T -> T) -> (row T -> T)) (q : quantity T) : quantity T :=
  match q with
  | Total f => Total (g f)
  | Each l => Each (map (fun sf => (fst sf, g (snd sf))) l)
  end.
(** combine two results of the same call shape, species by species. arithmetic on such results, as pandas broadcasts it in core/plasma.py 800-1725 *)
Definition qmap2 {T} (g : (row T -> T) -> (row T -> T) -> (row T -> T)) (p q : quantity T) : quantity T :=
  match p, q with
  | Total f, Total h => Total (g f h)
  | Each l, Each m =>
      Each (map (fun ab => (fst (fst ab), g (snd (fst ab)) (snd (snd ab)))) (combine l m))
  | _, _ => p
  end.

Section Quantities.
  Context {T : Type} {A : Arith T}.
  Local Open Scope num_scope.
  Variable K : consts T.

  (** the factors 0.5 of core/plasma.py 896-1725 *)
  Definition half : T := aofQ 1 2.
  (** core/units_constants.py 140-199 *)
  Definition u_b : T := aofQ 1 1000000000.                  (* 1e-9 *)
  (** ditto: core/units_constants.py 140-199 *)
  Definition u_v : T := aofZ 1000.
  (** ditto: core/units_constants.py 140-199 *)
  Definition u_pth : T := aofQ 1 1000000000000.             (* 1e-12 *)
  (** ditto: core/units_constants.py 140-199 *)
  Definition u_T : T := aofZ 100000.
  (** ditto: core/units_constants.py 140-199 *)
  Definition u_n : T := aofZ 1000000.
  (** ditto: core/units_constants.py 140-199 *)
  Definition u_rho : T := u_n * c_mp K.
  (** ditto: core/units_constants.py 140-199 *)
  Definition u_nuc : T := aofQ 1 10000000.
  (** ditto: core/units_constants.py 140-199 *)
  Definition u_qpar : T := aofQ 1 10000000.
  (** ditto: core/units_constants.py 140-199 *)
  Definition u_entropy : T := aofZ 10000 / c_e K.
  (** ditto: core/units_constants.py 140-199 *)
  Definition gamma : T := aofZ 5 / aofZ 3.                  (* 37: polytropic_index["scalar"] *)

  (** core/units_constants.py 39-102: the entry of the table for a species *)
  Definition m_in_mp_of (k : kind) : T :=
    match k with KProton => a1 | KAlpha => c_ma_mp K | KElectron => c_me_mp K end.
  (** core/units_constants.py 39-102: the entry of the table for a species *)
  Definition mass_of (k : kind) : T :=
    match k with KProton => c_mp K | KAlpha => c_ma K | KElectron => c_me K end.
  (** core/units_constants.py 39-102: the entry of the table for a species *)
  Definition amu_of (k : kind) : T :=
    match k with KProton => c_up K | KAlpha => c_ua K | KElectron => c_ue K end.
  (** core/units_constants.py 39-102: the entry of the table for a species *)
  Definition z_of (k : kind) : T :=
    match k with KProton => a1 | KAlpha => a2 | KElectron => aofZ (-1) end.
  (** core/units_constants.py 39-102: the entry of the table for a species *)
  Definition q_of (k : kind) : T :=
    match k with KProton => c_e K | KAlpha => a2 * c_e K | KElectron => - c_e K end.

  (* -------------------------------------------------------------- Ion *)
  (** core/ions.py 176-195 *)
  Definition ion_n (s : string) : row T -> T := fun r => r ("n", "", s).
  (** ditto: core/ions.py 176-195 *)
  Definition ion_rho (s : string) : result (row T -> T) :=
    k <- get_kind s ;; Ok (fun r => ion_n s r * m_in_mp_of k).
  (** core/ions.py 166-168: the components of the thermal speed (par, per, scalar).
      Simplification: further ('w', c, s) columns, which [set_data] would also keep, are ignored. *)
  Definition comps : list string := ["par"; "per"; "scalar"].
  (** ditto: core/ions.py 166-168 *)
  Definition ion_w (c s : string) : row T -> T := fun r => r ("w", c, s).
  (** core/ions.py 156-158 *)
  Definition ion_v (s : string) : row T -> vec T :=
    fun r => (r ("v", "x", s), r ("v", "y", s), r ("v", "z", s)).
  (** core/ions.py 213-226 *)
  Definition ion_temperature (c s : string) : result (row T -> T) :=
    k <- get_kind s ;;
    let coeff := half * mass_of k / (c_kbJ K * u_T) in
    Ok (fun r => coeff * asq (ion_w c s r * u_v)).
  (** core/ions.py 229-241 *)
  Definition ion_pth (c s : string) : result (row T -> T) :=
    rho <- ion_rho s ;;
    Ok (fun r => (half / u_pth) * (asq (ion_w c s r * u_v) * (rho r * u_rho))).
  (** core/ions.py 198-210: product with skipna=False *)
  Definition ion_anisotropy (s : string) : result (row T -> T) :=
    par <- ion_pth "par" s ;; per <- ion_pth "per" s ;;
    Ok (fun r => prod_strict [ainv (par r); per r]).
  (** core/ions.py 244-257 *)
  Definition ion_cs (c s : string) : result (row T -> T) :=
    pth <- ion_pth c s ;; rho <- ion_rho s ;;
    Ok (fun r => asqrt (((pth r * u_pth) / (rho r * u_rho)) * gamma) / u_v).
  (** core/ions.py 287-306: [self.units.kinetic_energy_flux] does not exist (units_constants.py
      140-199), so after the density has been computed the attribute lookup raises. *)
  Definition ion_kinetic_energy_flux (s : string) : result (row T -> T) :=
    bind (ion_rho s) (fun _ => Err AttributeError).

  (* ----------------------------------------------------------- Plasma *)
  Variable ions : list string.          (* index of [Plasma.ions] *)

  (** [{s: self.ions.loc[s].q for s in slist}] followed by [pd.concat]: repeated names collapse,
      an absent name raises KeyError, an empty dict raises ValueError. core/plasma.py 800-1725 (the comprehensions over [slist]) *)
  Definition per_species {B} (q : string -> result B) (slist : list string) : result (list (string * B)) :=
    cols <- mapM (fun s => if mem_str s ions then x <- q s ;; Ok (s, x) else Err KeyError)
                 (nodup_str slist) ;;
    match cols with [] => Err ValueError | _ => Ok cols end.

  (** core/plasma.py 800-1725 (the comprehensions over [slist]) *)
  Definition cols_at (cols : list (string * (row T -> T))) (r : row T) : list T :=
    map (fun sf => snd sf r) cols.
  (** single argument: sum over the species; [sum] is [sum_skip] (skipna=True) or [sum_strict]. core/plasma.py 800-1725: [x.sum(axis=1)] when one argument was given *)
  Definition total_or_each (sum : list T -> T) (args : list pyarg)
             (cols : list (string * (row T -> T))) : quantity T :=
    match args with
    | [_] => Total (fun r => sum (cols_at cols r))
    | _ => Each cols
    end.

  (** core/plasma.py 798-827 [number_density] *)
  Definition number_density (args : list pyarg) (skipna : bool) : result (quantity T) :=
    slist <- chk_species ions args ;;
    cols <- per_species (fun s => Ok (ion_n s)) slist ;;
    Ok (total_or_each (if skipna then sum_skip else sum_strict) args cols).

  (** core/plasma.py 833-857 [mass_density] *)
  Definition mass_density (args : list pyarg) : result (quantity T) :=
    slist <- chk_species ions args ;;
    cols <- per_species ion_rho slist ;;
    Ok (total_or_each sum_skip args cols).

  (** core/plasma.py 863-890 [thermal_speed], component [c]; 877 iterates over each argument, a
      non-string argument raises TypeError either there or in the check. *)
  Definition thermal_speed (args : list pyarg) (c : string) : result (quantity T) :=
    match all_strs args with
    | None => Err TypeError
    | Some ss =>
        if existsb (has_char plus) ss then Err NotImplementedError            (* 877-880 *)
        else slist <- chk_species ions args ;;
             cols <- per_species (fun s => Ok (ion_w c s)) slist ;;
             Ok (total_or_each sum_skip args cols)
    end.

  (** core/plasma.py 896-923 [pth] and 925-948 [temperature], component [c]. *)
  Definition pth (args : list pyarg) (c : string) : result (quantity T) :=
    slist <- chk_species ions args ;;
    cols <- per_species (ion_pth c) slist ;;
    Ok (total_or_each sum_skip args cols).
  (** ditto: core/plasma.py 896-923 *)
  Definition temperature (args : list pyarg) (c : string) : result (quantity T) :=
    slist <- chk_species ions args ;;
    cols <- per_species (ion_temperature c) slist ;;
    Ok (total_or_each sum_skip args cols).

  (** core/vector.py 73-84 [Vector.mag]: skipna=False *)
  Definition vmag (v : vec T) : T :=
    let '(x, y, z) := v in asqrt (sum_strict [asq x; asq y; asq z]).
  (** core/plasma.py 536-770: the columns b *)
  Definition bfield (r : row T) : vec T := (r ("b", "x", ""), r ("b", "y", ""), r ("b", "z", "")).
  (** core/vector.py 73-84 on the field *)
  Definition bmag (r : row T) : T := vmag (bfield r).
  (** core/vector.py 297-317 [BField.pressure] *)
  Definition pb (r : row T) : T :=
    asq (bmag r) * (asq u_b / ((a2 * c_mu0 K) * u_pth)).

  (** core/plasma.py 950-1000 [beta], component [c] *)
  Definition beta_coeff : T := (a2 * c_mu0 K) * (u_pth / asq u_b).
  (** ditto: core/plasma.py 950-1000 *)
  Definition beta (args : list pyarg) (c : string) : result (quantity T) :=
    p <- pth args c ;;
    Ok (qmap (fun f r => (f r / asq (bmag r)) * beta_coeff) p).

  (** core/plasma.py 1002-1035 [anisotropy]: both branches multiply with skipna=True *)
  Definition anisotropy (args : list pyarg) : result (quantity T) :=
    par <- pth args "par" ;; per <- pth args "per" ;;
    Ok (qmap2 (fun f g r => prod_skip [ainv (f r); g r]) par per).

  (* ------------------------------------------------------- velocities. component-wise arithmetic on the tables of core/plasma.py 1002-1090 *)
  Definition vscale (k : T) (v : vec T) : vec T := let '(x, y, z) := v in (x * k, y * k, z * k).
  (** component-wise arithmetic on the tables of core/plasma.py 1002-1090 *)
  Definition vcomp (i : nat) (v : vec T) : T :=
    let '(x, y, z) := v in match i with 0%nat => x | 1%nat => y | _ => z end.
  (** component-wise arithmetic on the tables of core/plasma.py 1002-1090 *)
  Definition vbuild (f : nat -> T) : vec T := (f 0%nat, f 1%nat, f 2%nat).

  (** core/plasma.py 1086-1087: component-wise weighted mean over the species columns *)
  Definition com_velocity (cols : list (string * ((row T -> vec T) * (row T -> T)))) (r : row T) : vec T :=
    vbuild (fun i =>
      sum_skip (map (fun c => vcomp i (fst (snd c) r) * snd (snd c) r) cols)
      / sum_skip (map (fun c => snd (snd c) r) cols)).

  (** core/plasma.py 1037-1090 [velocity] *)
  Definition velocity (args : list pyarg) (project_m2q : bool) : result (vquantity T) :=
    stuple <- chk_species ions args ;;
    match stuple with
    | [s] =>
        if mem_str s ions then                                                   (* 1059 *)
          if project_m2q then
            k <- get_kind s ;;                                                   (* 1061-1065 *)
            let m2q := asqrt (m_in_mp_of k / z_of k) in
            Ok (VOne (fun r => vscale m2q (ion_v s r)))
          else Ok (VOne (ion_v s))
        else Err KeyError
    | [] => if project_m2q then Err NotImplementedError else Ok (VEach [])
    | _ =>
        if project_m2q then Err NotImplementedError                              (* 1067-1074 *)
        else
          (* simplification: repeated names collapse to one entry *)
          vs <- per_species (fun s => Ok (ion_v s)) stuple ;;                    (* 1077 *)
          match args with
          | [_] =>
              cols <- per_species (fun s => rho <- ion_rho s ;; Ok (ion_v s, rho)) stuple ;;
              Ok (VOne (com_velocity cols))                                      (* 1079-1088 *)
          | _ => Ok (VEach vs)
          end
    end.

  (** component-wise arithmetic on the tables of core/plasma.py 1002-1090 *)
  Definition vsub (u v : vec T) : vec T := vbuild (fun i => vcomp i u - vcomp i v).
  (** a single-argument velocity. core/plasma.py 1002-1035 *)
  Definition velocity1 (s : string) (m2q : bool) : result (row T -> vec T) :=
    v <- velocity [PStr s] m2q ;;
    match v with VOne f => Ok f | VEach _ => Err AttributeError end.

  (** core/plasma.py 1096-1132 [dv] *)
  Definition dv (s0 s1 : string) (m2q : bool) : result (row T -> vec T) :=
    if String.eqb s0 s1 then Err NotImplementedError
    else v0 <- velocity1 s0 m2q ;; v1 <- velocity1 s1 m2q ;;
         Ok (fun r => vsub (v0 r) (v1 r)).

  (** [x.pow(2).sum(axis=1)] of core/plasma.py 1096-1132 and core/vector.py 97-125 *)
  Definition sumsq_skip (v : vec T) : T :=
    sum_skip [asq (vcomp 0 v); asq (vcomp 1 v); asq (vcomp 2 v)].

  (** core/plasma.py 1134-1188 [pdynamic] *)
  Definition pdv_const : T := ((half * u_rho) * asq u_v) / u_pth.
  (** ditto: core/plasma.py 1134-1188 *)
  Definition pdynamic (args : list pyarg) (m2q : bool) : result (row T -> T) :=
    stuple <- chk_species ions args ;;
    match stuple with
    | [_] => Err ValueError                                                     (* 1156-1158 *)
    | _ =>
      if negb m2q then
        match all_strs args with
        | None => Err TypeError
        | Some ss =>
          let scom := join "+" ss in                                            (* 1164 *)
          cols <- per_species (fun s => rho <- ion_rho s ;; d <- dv s scom false ;; Ok (rho, d)) stuple ;;
          Ok (fun r => sum_skip (map (fun c => sumsq_skip (snd (snd c) r) * fst (snd c) r) cols)
                       * pdv_const)                                             (* 1165-1174, 1185 *)
        end
      else match stuple with
      | [s0; s1] =>
          d <- dv s0 s1 true ;;                                                 (* 1178-1180 *)
          cols <- per_species ion_rho stuple ;;
          Ok (fun r => (sumsq_skip (d r) *
                        (prod_skip (cols_at cols r) / sum_skip (cols_at cols r))) * pdv_const)
      | _ => Err UnboundLocalError                                              (* 1185: pdv unbound *)
      end
    end.

  (* ----------------------------------------------------- speeds, afsq *)
  (** core/plasma.py 1194-1220 [sound_speed] *)
  Definition sound_speed (args : list pyarg) : result (quantity T) :=
    rho <- mass_density args ;; p <- pth args "scalar" ;;
    Ok (qmap2 (fun f g r => asqrt (((f r * u_pth) / (g r * u_rho)) * gamma) / u_v) p rho).

  (** core/plasma.py 1226-1251 [ca]; [x.pow(-0.5)] is written 1/sqrt(x) *)
  Definition ca_coeff : T := u_b / (asqrt (u_rho * c_mu0 K) * u_v).
  (** ditto: core/plasma.py 1226-1251 *)
  Definition ca (args : list pyarg) : result (quantity T) :=
    rho <- mass_density args ;;
    Ok (qmap (fun f r => (ainv (asqrt (f r)) * bmag r) * ca_coeff) rho).

  (** core/plasma.py 1253-1314 [afsq] *)
  Definition afsq_coeff : T := (c_mu0 K * u_pth) / asq u_b.
  (** ditto: core/plasma.py 1253-1314 *)
  Definition bsq_skip (r : row T) : T := sumsq_skip (bfield r).
  (** ditto: core/plasma.py 1253-1314 *)
  Definition afsq (args : list pyarg) (pdyn : bool) : result (quantity T) :=
    if pdyn then Err NotImplementedError else
    par <- pth args "par" ;; per <- pth args "per" ;;
    Ok (qmap2 (fun f g r => a1 + (sum_skip [f r * aofZ (-1); g r * a1] / bsq_skip r) * afsq_coeff) par per).

  (** core/plasma.py 1316-1351 [caani] *)
  Definition caani (args : list pyarg) (pdyn : bool) : result (row T -> T) :=
    stuple <- chk_species ions args ;;
    let ssum := [PStr (join "+" stuple)] in
    c <- ca ssum ;; a <- afsq ssum pdyn ;;
    match c, a with
    | Total f, Total g => Ok (fun r => f r * asqrt (g r))
    | _, _ => Err TypeError      (* unreachable: a single argument gives a Series *)
    end.

  (** core/plasma.py 1872-1897 [kinetic_energy_flux] *)
  Definition kinetic_energy_flux (args : list pyarg) : result (quantity T) :=
    slist <- chk_species ions args ;;
    cols <- per_species ion_kinetic_energy_flux slist ;;
    Ok (total_or_each sum_skip args cols).

  (** core/vector.py 208-218 [unit_vector] and 231-264 [project] *)
  Definition unit_vector (v : vec T) : vec T := vbuild (fun i => vcomp i v / vmag v).
  (** ditto: core/vector.py 208-218 *)
  Definition vdot_skip (u v : vec T) : T :=
    sum_skip [vcomp 0 u * vcomp 0 v; vcomp 1 u * vcomp 1 v; vcomp 2 u * vcomp 2 v].
  (** ditto: core/vector.py 208-218 *)
  Definition project_par (v other : vec T) : T := vdot_skip v (unit_vector other).
  (** ditto: core/vector.py 208-218 *)
  Definition project_per (v other : vec T) : T :=
    let u := unit_vector other in
    let par := vdot_skip v u in
    asqrt (sumsq_skip (vbuild (fun i => vcomp i v - vcomp i u * par))).
  (** core/vector.py 266-291 [cos_theta] *)
  Definition cos_theta (v other : vec T) : T := vdot_skip (unit_vector v) (unit_vector other).

  (** core/plasma.py 1729-1770 [heat_flux]. Simplification: repeated species names are collapsed. *)
  Definition qpar_coeff : T := (u_rho * acube u_v) / u_qpar.
  (** ditto: core/plasma.py 1729-1770 *)
  Definition heat_flux (args : list pyarg) : result (quantity T) :=
    slist <- chk_species ions args ;;
    match slist with
    | [] | [_] => Err ValueError                                               (* 1750-1751 *)
    | _ =>
      let scom := join "+" slist in
      cols <- per_species (fun s =>
                rho <- ion_rho s ;; d <- dv s scom false ;;
                Ok (fun r =>
                  let p := project_par (d r) (bfield r) in
                  (acube p + (p * asq (r ("w", "par", s))) * (aofZ 3 / a2)) * rho r)) slist ;;
      Ok (qmap (fun f r => qpar_coeff * f r) (total_or_each sum_skip args cols))
    end.

  (* ---------------------------------------------------------- electrons *)
  (** core/plasma.py 1655-1674: which proton species sets the electron thermal speed *)
  Definition electron_ref (species : list string) : result string :=
    if mem_str "e" species then Err NotImplementedError
    else match mem_str "p" species, mem_str "p1" species with
         | false, false => Err ValueError
         | true, true => Err ValueError
         | true, false => Ok "p"
         | false, true => Ok "p1"
         end.

  (** core/plasma.py 1639-1709 [estimate_electrons]: the electron columns
      n, (vx, vy, vz), w (= w_par = w_per) of a row. [species] is [self.species]. *)
  Record electrons := { el_n : T; el_v : vec T; el_w : T }.
  (** ditto: core/plasma.py 1639-1709 *)
  Definition estimate_electrons (species : list string) : result (row T -> electrons) :=
    tkw <- electron_ref species ;;
    ks <- mapM get_kind species ;;                                              (* 1676 *)
    let args := map PStr species in
    n <- number_density args true ;;                                            (* 1677 *)
    v <- velocity args false ;;                                                 (* 1678 *)
    wp <- thermal_speed [PStr tkw] "scalar" ;;                                  (* 1696 *)
    np <- number_density [PStr tkw] true ;;                                     (* 1697 *)
    match n, v, wp, np with
    | Total fn, VOne fv, Total fw, Total fnp =>                                 (* 1679-1685 *)
        match ks with
        | [k] =>
            Ok (fun r =>
              let ne := fn r * z_of k in
              let ve := vbuild (fun i => (vcomp i (fv r) * ne) / ne) in
              let we := asqrt (((fnp r / ne) * ainv (c_me_mp K)) * asq (fw r)) in
              if aeqb ne a0 then {| el_n := anan; el_v := (anan, anan, anan); el_w := anan |}
              else {| el_n := ne; el_v := ve; el_w := we |})
        | _ => Err KeyError
        end
    | Each fns, VEach fvs, Total fw, Total fnp =>                               (* 1686-1692 *)
        (* charges are looked up by name, column by column *)
        qs <- mapM (fun sf => get_kind (fst sf)) fns ;;
        Ok (fun r =>
          let niqi := map (fun p => snd (fst p) r * z_of (snd p)) (combine fns qs) in
          let ne := sum_skip niqi in
          let ve := vbuild (fun i =>
                      sum_skip (map (fun p => vcomp i (snd (fst p) r) * snd p) (combine fvs niqi)) / ne) in
          let we := asqrt (((fnp r / ne) * ainv (c_me_mp K)) * asq (fw r)) in
          if aeqb ne a0 then {| el_n := anan; el_v := (anan, anan, anan); el_w := anan |}   (* 1706-1707 *)
          else {| el_n := ne; el_v := ve; el_w := we |})
    | _, _, _, _ => Err AttributeError
    end.

  (* --------------------------------------------- Coulomb collisions *)
  Section Collisions.
    Context {TR : Transc T}.
    (** scipy.special.erf, as a parameter *)
    Variable erf : T -> T.

    (** the argument checks of core/plasma.py 1639-1709 *)
    Definition one_species (s : string) : result string :=
      l <- chk_species ions [PStr s] ;;
      match l with [x] => Ok x | _ => Err ValueError end.
    (* the code checks both, then their lengths. the argument checks of core/plasma.py 1639-1709 *)
    Definition two_single (s0 s1 : string) : result (string * string) :=
      l0 <- chk_species ions [PStr s0] ;; l1 <- chk_species ions [PStr s1] ;;
      match l0, l1 with
      | [x], [y] => Ok (x, y)
      | _, _ => Err ValueError
      end.
    (** [self.ions.loc[s]], core/plasma.py 540-551 *)
    Definition get_ion {B} (s : string) (q : result B) : result B :=
      if mem_str s ions then q else Err KeyError.

    (** core/plasma.py 1353-1412 [lnlambda] *)
    Definition lnlambda (s0 s1 : string) : result (row T -> T) :=
      ss <- two_single s0 s1 ;;
      let '(s0, s1) := ss in
      k0 <- get_kind s0 ;; k1 <- get_kind s1 ;;
      t0 <- get_ion s0 (ion_temperature "scalar" s0) ;;
      t1 <- get_ion s1 (ion_temperature "scalar" s1) ;;
      Ok (fun r =>
        let z0 := z_of k0 in let z1 := z_of k1 in
        let am0 := amu_of k0 in let am1 := amu_of k1 in
        let n0 := ion_n s0 r * u_n in let n1 := ion_n s1 r * u_n in
        let T0 := (t0 r * u_T) * c_kbeV K in let T1 := (t1 r * u_T) * c_kbeV K in
        let r0 := (n0 * asq z0) / T0 in let r1 := (n1 * asq z1) / T1 in
        let right := asqrt (r0 + r1) in
        let left := ((z0 * z1) * (am0 + am1)) / (am0 * T1 + am1 * T0) in
        (aofQ 299 10 - tln (left * right)) / a1).

    (** core/plasma.py 1414-1504 [nuc] *)
    Definition nuc (sa sb : string) (both_species : bool) : result (row T -> T) :=
      ss <- two_single sa sb ;;
      let '(sa, sb) := ss in
      ka <- get_kind sa ;; kb <- get_kind sb ;;
      lnl <- lnlambda sa sb ;;
      d <- dv sa sb false ;;
      rhoa <- mass_density [PStr sa] ;; rhob <- mass_density [PStr sb] ;;
      match rhoa, rhob with
      | Total fa, Total fb =>
        let qabsq := prod_skip [asq (q_of ka); asq (q_of kb)] in
        let ma := mass_of ka in
        let mu := prod_skip [mass_of ka; mass_of kb] / sum_skip [mass_of ka; mass_of kb] in
        let coeff := qabsq / ((((aofZ 4 * tpi) * asq (c_eps0 K)) * ma) * mu) in
        Ok (fun r =>
          let nb := ion_n sb r * u_n in
          let wab := asqrt (sum_skip [asq (ion_w "par" sa r); asq (ion_w "par" sb r)]) * u_v in
          let dvw := (vmag (d r) * u_v) / wab in
          let ldr1 := erf dvw in
          let ldr2 := dvw * ((a2 / asqrt tpi) * texp (aofZ (-1) * asq dvw)) in
          let ldr := ainv (acube dvw) * (ldr1 - ldr2) in
          let nuab := (coeff * (((nb * (lnl r * a1)) * ldr) * ainv (acube wab))) / u_nuc in
          if both_species then
            nuab + nuab * prod_skip [fa r; ainv (fb r)]
          else nuab)
      | _, _ => Err TypeError     (* unreachable *)
      end.

    (** core/plasma.py 1554-1637 [vdf_ratio] *)
    Definition vdf_ratio (beam core : string) : result (row T -> T) :=
      ss <- two_single beam core ;;
      let '(beam, core) := ss in
      if negb (mem_str beam ions && mem_str core ions) then Err KeyError else   (* 1616-1619 *)
      d <- dv beam core true ;;
      Ok (fun r =>
        let n1 := r ("n", "", core) in let n2 := r ("n", "", beam) in
        let w1par := r ("w", "par", core) in let w1per := r ("w", "per", core) in
        let w2par := r ("w", "par", beam) in let w2per := r ("w", "per", beam) in
        let dvw := sum_skip [asq (project_par (d r) (bfield r) / w1par);
                             asq (project_per (d r) (bfield r) / w1per)] in
        let nbar := n2 / n1 in
        let wbar := (w1par / w2par) * asq (w1per / w2per) in
        tln (nbar * wbar) + dvw).

    (** core/plasma.py 1824-1870 [specific_entropy] *)
    Definition specific_entropy (args : list pyarg) : result (quantity T) :=
      p <- pth args "scalar" ;; rho <- mass_density args ;;
      Ok (qmap2 (fun f g r => ((f r * u_pth) * tpow (g r * u_rho) (- gamma)) / u_entropy) p rho).
  End Collisions.
End Quantities.

Section Inplace.
  Context {T : Type} {A : Arith T}.
  Variable K : consts T.

  (** core/plasma.py 1711-1725: the electron columns are added to the table, which is set again. *)
  Definition electron_cols : list key :=
    [("n", "", "e"); ("v", "x", "e"); ("v", "y", "e"); ("v", "z", "e"); ("w", "par", "e"); ("w", "per", "e")].
  (** ditto: core/plasma.py 1711-1725 *)
  Definition with_electrons (el : row T -> electrons) (r : row T) : row T :=
    fun k =>
      if negb (mem_key k electron_cols) then r k
      else if key_eqb k ("n", "", "e") then el_n (el r)
      else if key_eqb k ("v", "x", "e") then vcomp 0 (el_v (el r))
      else if key_eqb k ("v", "y", "e") then vcomp 1 (el_v (el r))
      else if key_eqb k ("v", "z", "e") then vcomp 2 (el_v (el r))
      else el_w (el r).
  (** Simplification: the rows of [p_data] and [p_ion_data] are taken to be the same table here, as
      they are unless [set_data] was called by hand. core/plasma.py 1711-1725 *)
  Definition estimate_electrons_inplace (p : plasma T) : result (plasma T) :=
    el <- estimate_electrons K (p_ions p) (p_species p) ;;
    let data := p_data p in
    let new := {| f_cols := f_cols data ++ electron_cols; f_dt := f_dt data;
                  f_rows := map (fun zr => (fst zr, with_electrons el (snd zr))) (f_rows data) |} in
    species <- clean_species_for_setting (sort_str (p_species p ++ ["e"])) ;;   (* 1722-1723 *)
    d <- plasma_set_data species new ;;                                         (* 1724 *)
    ions <- set_ions species d ;;                                               (* 1725 *)
    Ok {| p_species := ions; p_ions := nodup_str ions; p_data := d; p_ion_data := d;
          p_sc := p_sc p; p_aux := p_aux p |}.
End Inplace.
