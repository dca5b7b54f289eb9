(** Label tables of solarwindpy/plotting/labels/base.py, transcribed. *)
From Coq Require Import List String.
Import ListNotations.
Open Scope string_scope.

(** base.py:13-63, [_trans_species], with the string expressions evaluated. *)
Definition trans_species : list (string * string) := [
  ("e", "e^-");
  ("a", "\alpha");
  ("a1", "\alpha_1");
  ("a2", "\alpha_2");
  ("p", "p");
  ("p_bimax", "p");
  ("p1", "p_1");
  ("p2", "p_2");
  ("he", "\mathrm{He}");
  ("dv", "\Delta v");
  ("C", "\mathrm{C}");
  ("Fe", "\mathrm{Fe}");
  ("He", "\mathrm{He}");
  ("H", "\mathrm{H}");
  ("Mg", "\mathrm{Mg}");
  ("Ne", "\mathrm{Ne}");
  ("N", "\mathrm{N}");
  ("O", "\mathrm{O}");
  ("Si", "\mathrm{Si}");
  ("S", "\mathrm{S}");
  ("3He", "^{3}\mathrm{He}");
  ("4He", "^{4}\mathrm{He}");
  ("12C", "^{12}\mathrm{C}");
  ("14N", "^{14}\mathrm{N}");
  ("16O", "^{16}\mathrm{O}");
  ("20Ne", "^{20}\mathrm{Ne}");
  ("24Mg", "^{24}\mathrm{Mg}");
  ("28Si", "^{28}\mathrm{Si}");
  ("32S", "^{32}\mathrm{S}");
  ("40Ca", "^{40}\mathrm{Ca}")
].

(** base.py:110-121, [_trans_measurement], with the string expressions evaluated. *)
Definition trans_measurement : list (string * string) := [
  ("pth", "P");
  ("beta", "\beta");
  ("dbeta", "\Delta \beta");
  ("dv", "\Delta v");
  ("qhat", "\widehat{q}");
  ("Qhat", "\widehat{q}");
  ("ab", "A");
  ("theta", "\theta");
  ("cos_theta", "\cos\theta");
  ("carr", "\mathrm{Carrington}")
].

(** base.py:123-136, [_inU], with the string expressions evaluated. *)
Definition inU : list (string * string) := [
  ("b", "\mathrm{nT}");
  ("Re", "\mathrm{R}_\oplus");
  ("Rs", "\mathrm{R}_\odot");
  ("kms", "\mathrm{km \; s^{-1}}");
  ("pPa", "\mathrm{pPa}");
  ("cm-3", "\mathrm{cm}^{-3}");
  ("dimless", "\mathrm{\#}");
  ("unknown", "???");
  ("km", "\mathrm{km}");
  ("deg", "\mathrm{deg.}");
  ("Hz", "\mathrm{Hz}")
].

(** base.py:138-230, [_trans_units], with the string expressions evaluated. *)
Definition trans_units : list (string * string) := [
  ("gse", "\mathrm{R}_\oplus");
  ("hci", "\mathrm{R}_\odot");
  ("colat", "\mathrm{deg.}");
  ("lat", "\mathrm{deg.}");
  ("lon", "\mathrm{deg.}");
  ("carr", "\mathrm{deg.}");
  ("theta", "\mathrm{deg.}");
  ("phi", "\mathrm{deg.}");
  ("deg", "\mathrm{deg.}");
  ("cos", "\mathrm{\#}");
  ("cos_theta", "\mathrm{\#}");
  ("year", "\mathrm{Year}");
  ("fdoy", "\mathrm{fdoy}");
  ("b", "\mathrm{nT}");
  ("n", "\mathrm{cm}^{-3}");
  ("rho", "m_p \; \mathrm{cm}^{-3}");
  ("v", "\mathrm{km \; s^{-1}}");
  ("w", "\mathrm{km \; s^{-1}}");
  ("dv", "\mathrm{km \; s^{-1}}");
  ("dn", "\mathrm{cm}^{-3}");
  ("cs", "\mathrm{km \; s^{-1}}");
  ("ca", "\mathrm{km \; s^{-1}}");
  ("afsq", "\mathrm{\#}");
  ("caani", "\mathrm{km \; s^{-1}}");
  ("p", "\mathrm{pPa}");
  ("pth", "\mathrm{pPa}");
  ("T", "10^5 \, \mathrm{K}");
  ("q", "\mathrm{mW \, cm^{-2}}");
  ("qhat", "\mathrm{\#}");
  ("Q", "\mathrm{mW \, cm^{-2}}");
  ("R", "\perp/\parallel");
  ("beta", "\mathrm{\#}");
  ("pdv", "\mathrm{pPa}");
  ("edv", "\mathrm{\#}");
  ("S", "\mathrm{eV \, cm^2 \, m_p^{-5/3}}");
  ("flux", "10^{-9} \, \mathrm{cm}^{-2} \, s^{-1}");
  ("lnlambda", "\mathrm{\#}");
  ("nuc", "10^{-7} \mathrm{Hz}");
  ("nc", "\mathrm{\#}");
  ("chisq", "\mathrm{\#}");
  ("chisqnu", "\mathrm{\#}");
  ("VDFratio", "\mathrm{\#}");
  ("ab", "\%");
  ("e", "\mathrm{km \; s^{-1}}");
  ("zp", "\mathrm{km \; s^{-1}}");
  ("zm", "\mathrm{km \; s^{-1}}");
  ("ep", "(\mathrm{km \; s^{-1}})^2");
  ("em", "(\mathrm{km \; s^{-1}})^2");
  ("ev", "(\mathrm{km \; s^{-1}})^2");
  ("etot", "(\mathrm{km \; s^{-1}})^2");
  ("eres", "(\mathrm{km \; s^{-1}})^2");
  ("xhel", "(\mathrm{km \; s^{-1}})^2");
  ("sigma_m", "\mathrm{\#}");
  ("sigma_c", "\mathrm{\#}");
  ("sigma_r", "\mathrm{\#}");
  ("sigma_xy", "\mathrm{\#}");
  ("ra", "\mathrm{\#}");
  ("re", "\mathrm{\#}");
  ("Wn", "\mathrm{\#}");
  ("omegaR", "\mathrm{Hz}");
  ("gamma", "\mathrm{Hz}");
  ("gamma_max", "\mathrm{Hz}");
  ("gyro_freq", "\mathrm{Hz}");
  ("kvec", "\mathrm{\#}");
  ("k", "\mathrm{\#}");
  ("insta_power", "???");
  ("Lalpha", "\mathrm{W/m^2}");
  ("f10.7", "\mathrm{Solar \, Flux \, Unit \, (SFU)}");
  ("CaK", "Unknown \, Need \, to \, Read \, MetaData");
  ("MgII", "\mathrm{\#}");
  ("entropy", "\mathrm{ln}(K \, \mathrm{cm}^{-3/2})");
  ("spectral_exponent", "\mathrm{\#}");
  ("MeV/nuc", "\mathrm{MeV/nuc}");
  ("SEP_differential_flux", "\mathrm{\frac{\#}{cm^2 \, sr \, s \, MeV/nuc}}");
  ("SEP_intensity", "\mathrm{cm^2 \, sr \, s \, MeV/nuc}");
  ("SEP_energy", "\mathrm{MeV/nuc}");
  ("SEP_spectrum_index", "\mathrm{\#}")
].

(** base.py:232-254, [_trans_component], with the string expressions evaluated. *)
Definition trans_component : list (string * string) := [
  ("x", "X");
  ("y", "Y");
  ("z", "Z");
  ("r", "R");
  ("rho", "\rho");
  ("colat", "\lambda");
  ("lat", "\theta");
  ("lon", "\phi");
  ("R", "\mathrm{R}");
  ("scalar", "\mathrm{scalar}");
  ("theta", "\theta");
  ("phi", "\phi");
  ("per", "\perp");
  ("par", "\parallel");
  ("T", "T");
  ("p", "p");
  ("const", "\mathrm{const}");
  ("bv", "{\mathbf{B} \cdot \mathbf{v}}");
  ("dv", "\Delta v")
].

(** base.py:256-335, [_templates], with the string expressions evaluated. *)
Definition templates : list (string * string) := [
  ("year", "\mathrm{Year}");
  ("fdoy", "\mathrm{Fractional \; Day \; of \; Year}");
  ("gse", "{$C}_{\mathrm{GSE}}");
  ("hci", "{$C}_{\mathrm{HCI}}");
  ("colat", "\theta_{$C}");
  ("carr", "{$C}_\mathrm{Carrington}");
  ("b", "B_{$C}");
  ("n", "n_{$S}");
  ("rho", "\rho_{$S}");
  ("q", "q_{{$C};{$S}}");
  ("Q", "Q_{{$C};{$S}}");
  ("S", "S_{$S}");
  ("ratio", "\mathrm{Ratio}");
  ("cos", "\cos");
  ("cos_theta", "\cos \theta_{{$C}_{$S}}");
  ("cos_phi", "\cos \phi_{{$C}_{$S}}");
  ("cs", "C_{s;$S}");
  ("ca", "C_{A;$S}");
  ("afsq", "\mathrm{Anisotropy \, Factor}^2_{$S}");
  ("caani", "C^{(\mathrm{Ani})}_{A;$S} \; ($C)");
  ("lnlambda", "\ln\Lambda_{$S}");
  ("nuc", "\nu_{$C,$S}");
  ("nc", "N_{C;$S}");
  ("VDFratio", "\mathrm{ln}(\frac{f_i}{f_j} \left(v_i\right)_{$S})");
  ("chisq", "\chi^2");
  ("chisqnu", "\chi^2_\nu");
  ("edv", "P_{\Delta v}/P_\mathrm{th}|_{$S}");
  ("pdv", "P_{\Delta v_{$S}}");
  ("ab", "A_{$S}");
  ("e", "e\left({$C}_{$S}\right)");
  ("entropy", "\mathrm{S}_{$S}");
  ("zp", "Z^+_{{$S}}");
  ("zm", "Z^-_{{$S}}");
  ("ep", "e^+_{{$S}}");
  ("em", "e^-_{{$S}}");
  ("ev", "e^v_{{$S}}");
  ("etot", "E_{{$S}}");
  ("eres", "e^r_{{$S}}");
  ("xhel", "e^c_{{$S}}");
  ("sigma_c", "\sigma_{c;{$S}}");
  ("sigma_r", "\sigma_{r;{$S}}");
  ("sigma_m", "\sigma_{m}");
  ("sigma_xy", "\sigma_{\parallel}");
  ("ra", "r_{A;{$S}}");
  ("re", "r_{E;{$S}}");
  ("dn", "\delta n_{{$S}}");
  ("Wn", "\mathrm{W_n}");
  ("gamma", "\gamma");
  ("gamma_max", "\gamma_\mathrm{max}");
  ("omegaR", "\omega_R");
  ("gyro_freq", "\Omega_{{$S}}");
  ("eth", "\eth");
  ("kvec", "\mathbf{k}_{$C}\rho_{$S}");
  ("k", "k_{$C}\rho_{$S}");
  ("insta_power", "\mathcal{P}_{{$S}}");
  ("Lalpha", "\mathrm{L}\alpha");
  ("f10.7", "\mathrm{F}10.7");
  ("CaK", "\mathrm{CaK}");
  ("MgII", "\mathrm{MgII}");
  ("flux", "\mathrm{Flux}_{$C}({$S})");
  ("spectral_exponent", "\mathrm{Spectral \, Exponent}");
  ("MeV/nuc", "\mathrm{Energy}");
  ("SEP_differential_flux", "{{$S}} \: dJ/dE");
  ("SEP_intensity", "{{$S}} \: \mathrm{Intensity}");
  ("SEP_energy", "{{$S}} \: \mathrm{Energy}");
  ("SEP_spectrum_index", "\gamma_{{$S}}")
].

(** base.py:79, [_default_template_string]. *)
Definition default_template_string : string := "{$M}_{{$C};{$S}}".

