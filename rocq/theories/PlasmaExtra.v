(** The two Plasma methods that combine other objects: the Coulomb number (needs the spacecraft) and
    the construction of the Alfvenic turbulence object (core/plasma.py 1506-1552, 1776-1822). *)
From Coq Require Import List String Ascii Bool Arith ZArith.
From Verif Require Import Py PyStr Sort Num Species Frame Plasma Spacecraft.
Import ListNotations.
Open Scope string_scope.
Open Scope py_scope.

Section Extra.
  Context {T : Type} {A : Arith T} {TR : Transc T}.
  Local Open Scope num_scope.
  Variable K : consts T.
  Variable ions : list string.

  (** core/units_constants.py 185 *)
  Definition u_nc : T := a1.                         (* core/units_constants.py 185 *)

  (** core/plasma.py 1506-1552 [nc]. [species] is [self.species]; [sc] is the spacecraft's frame name
      (None without spacecraft). Simplification: the position columns are read from the same row, i.e.
      the spacecraft table and the plasma table have the same index; the value is a row function that
      may raise, because [distance2sun] raises for an unknown frame. *)
  Definition nc (erf : T -> T) (au : T) (species : list string) (sc : option string)
             (sa sb : string) (both : bool) : result (row T -> result T) :=
    ss <- two_single ions sa sb ;;                                             (* 1525-1535 *)
    let '(sa, sb) := ss in
    match sc with
    | None => Err ValueError                                                   (* 1537-1540 *)
    | Some frame_ =>
        v <- velocity1 K ions (join "+" species) false ;;                      (* 1543 *)
        nu <- nuc K ions erf sa sb both ;;                                     (* 1546 *)
        Ok (fun r =>
          d <- distance2sun au frame_ r ;;                                     (* 1542 *)
          let dist := d * u_distance2sun in
          let vsw := vmag (v r) * u_v in
          let tau_exp := dist / vsw in                                         (* 1544 *)
          Ok (((nu r * u_nuc) * tau_exp) / u_nc))                              (* 1548 *)
    end.

  (** core/plasma.py 1776-1822 [build_alfvenic_turbulence]: the velocity and mass density handed to
      [AlfvenicTurbulence] (with the cartesian field), as row functions. *)
  Definition build_alfvenic (species : string)
    : result ((row T -> vec T) * (row T -> vec T) * (row T -> T)) :=
    match split_on comma species with
    | [s] =>
        _ <- chk_species ions [PStr s] ;;                                      (* 1801 *)
        v <- velocity1 K ions species false ;;
        rho <- mass_density K ions [PStr species] ;;
        match rho with Total f => Ok (v, bfield, f) | Each _ => Err AttributeError end
    | [s0; s1] =>
        l0 <- chk_species ions [PStr s0] ;; l1 <- chk_species ions [PStr s1] ;;
        let s0 := join "+" l0 in let s1 := join "+" l1 in
        v <- dv K ions s0 s1 false ;;                                          (* 1811 *)
        rho <- mass_density K ions [PStr s1] ;;                                (* 1812 *)
        match rho with Total f => Ok (v, bfield, f) | Each _ => Err AttributeError end
    | _ => Err ValueError                                                      (* 1814-1816 *)
    end.
End Extra.
