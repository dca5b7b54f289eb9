(** The shipped tables core/data/asplund2009.csv and asplund2021.csv (lines 8-90 of each), in thousandths:
    Z, Symbol, CI_chondrites Ab and Uncert, Photosphere Ab and Uncert, comment (2021 only). Generated from the files. *)
From Coq Require Import List String ZArith.
From Verif Require Import Abund.
Import ListNotations.
Open Scope string_scope.
Open Scope Z_scope.

(** core/data/asplund2009.csv, row by row (read by core/abundances.py 109-128) *)
Definition asplund2009 : list entry := [
  mkEntry 1 "H" (Some (8220)) (Some (40)) (Some (12000)) (None) (None);
  mkEntry 2 "He" (Some (1290)) (None) (Some (10930)) (Some (10)) (None);
  mkEntry 3 "Li" (Some (3260)) (Some (50)) (Some (1050)) (Some (100)) (None);
  mkEntry 4 "Be" (Some (1300)) (Some (30)) (Some (1380)) (Some (90)) (None);
  mkEntry 5 "B" (Some (2790)) (Some (40)) (Some (2700)) (Some (200)) (None);
  mkEntry 6 "C" (Some (7390)) (Some (40)) (Some (8430)) (Some (50)) (None);
  mkEntry 7 "N" (Some (6260)) (Some (60)) (Some (7830)) (Some (50)) (None);
  mkEntry 8 "O" (Some (8400)) (Some (40)) (Some (8690)) (Some (50)) (None);
  mkEntry 9 "F" (Some (4420)) (Some (60)) (Some (4560)) (Some (300)) (None);
  mkEntry 10 "Ne" (Some (-1120)) (None) (Some (7930)) (Some (100)) (None);
  mkEntry 11 "Na" (Some (6270)) (Some (20)) (Some (6240)) (Some (40)) (None);
  mkEntry 12 "Mg" (Some (7530)) (Some (10)) (Some (7600)) (Some (40)) (None);
  mkEntry 13 "Al" (Some (6430)) (Some (10)) (Some (6450)) (Some (30)) (None);
  mkEntry 14 "Si" (Some (7510)) (Some (10)) (Some (7510)) (Some (30)) (None);
  mkEntry 15 "P" (Some (5430)) (Some (40)) (Some (5410)) (Some (30)) (None);
  mkEntry 16 "S" (Some (7150)) (Some (20)) (Some (7120)) (Some (30)) (None);
  mkEntry 17 "Cl" (Some (5230)) (Some (60)) (Some (5500)) (Some (300)) (None);
  mkEntry 18 "Ar" (Some (-50)) (None) (Some (6400)) (Some (130)) (None);
  mkEntry 19 "K" (Some (5080)) (Some (20)) (Some (5030)) (Some (90)) (None);
  mkEntry 20 "Ca" (Some (6290)) (Some (20)) (Some (6340)) (Some (40)) (None);
  mkEntry 21 "Sc" (Some (3050)) (Some (20)) (Some (3150)) (Some (40)) (None);
  mkEntry 22 "Ti" (Some (4910)) (Some (30)) (Some (4950)) (Some (50)) (None);
  mkEntry 23 "V" (Some (3960)) (Some (20)) (Some (3930)) (Some (80)) (None);
  mkEntry 24 "Cr" (Some (5640)) (Some (10)) (Some (5640)) (Some (40)) (None);
  mkEntry 25 "Mn" (Some (5480)) (Some (10)) (Some (5430)) (Some (40)) (None);
  mkEntry 26 "Fe" (Some (7450)) (Some (10)) (Some (7500)) (Some (40)) (None);
  mkEntry 27 "Co" (Some (4870)) (Some (10)) (Some (4990)) (Some (70)) (None);
  mkEntry 28 "Ni" (Some (6200)) (Some (10)) (Some (6220)) (Some (40)) (None);
  mkEntry 29 "Cu" (Some (4250)) (Some (40)) (Some (4190)) (Some (40)) (None);
  mkEntry 30 "Zn" (Some (4630)) (Some (40)) (Some (4560)) (Some (50)) (None);
  mkEntry 31 "Ga" (Some (3080)) (Some (20)) (Some (3040)) (Some (90)) (None);
  mkEntry 32 "Ge" (Some (3580)) (Some (40)) (Some (3650)) (Some (100)) (None);
  mkEntry 33 "As" (Some (2300)) (Some (40)) (None) (None) (None);
  mkEntry 34 "Se" (Some (3340)) (Some (30)) (None) (None) (None);
  mkEntry 35 "Br" (Some (2540)) (Some (60)) (None) (None) (None);
  mkEntry 36 "Kr" (Some (-2270)) (None) (Some (3250)) (Some (60)) (None);
  mkEntry 37 "Rb" (Some (2360)) (Some (30)) (Some (2520)) (Some (100)) (None);
  mkEntry 38 "Sr" (Some (2880)) (Some (30)) (Some (2870)) (Some (70)) (None);
  mkEntry 39 "Y" (Some (2170)) (Some (40)) (Some (2210)) (Some (50)) (None);
  mkEntry 40 "Zr" (Some (2530)) (Some (40)) (Some (2580)) (Some (40)) (None);
  mkEntry 41 "Nb" (Some (1410)) (Some (40)) (Some (1460)) (Some (40)) (None);
  mkEntry 42 "Mo" (Some (1940)) (Some (40)) (Some (1880)) (Some (80)) (None);
  mkEntry 44 "Ru" (Some (1760)) (Some (30)) (Some (1750)) (Some (80)) (None);
  mkEntry 45 "Rh" (Some (1060)) (Some (40)) (Some (910)) (Some (100)) (None);
  mkEntry 46 "Pd" (Some (1650)) (Some (20)) (Some (1570)) (Some (100)) (None);
  mkEntry 47 "Ag" (Some (1200)) (Some (20)) (Some (940)) (Some (100)) (None);
  mkEntry 48 "Cd" (Some (1710)) (Some (30)) (None) (None) (None);
  mkEntry 49 "In" (Some (760)) (Some (30)) (Some (800)) (Some (200)) (None);
  mkEntry 50 "Sn" (Some (2070)) (Some (60)) (Some (2040)) (Some (100)) (None);
  mkEntry 51 "Sb" (Some (1010)) (Some (60)) (None) (None) (None);
  mkEntry 52 "Te" (Some (2180)) (Some (30)) (None) (None) (None);
  mkEntry 53 "I" (Some (1550)) (Some (80)) (None) (None) (None);
  mkEntry 54 "Xe" (Some (-1950)) (None) (Some (2240)) (Some (60)) (None);
  mkEntry 55 "Cs" (Some (1080)) (Some (20)) (None) (None) (None);
  mkEntry 56 "Ba" (Some (2180)) (Some (30)) (Some (2180)) (Some (90)) (None);
  mkEntry 57 "La" (Some (1170)) (Some (20)) (Some (1100)) (Some (40)) (None);
  mkEntry 58 "Ce" (Some (1580)) (Some (20)) (Some (1580)) (Some (40)) (None);
  mkEntry 59 "Pr" (Some (760)) (Some (30)) (Some (720)) (Some (40)) (None);
  mkEntry 60 "Nd" (Some (1450)) (Some (20)) (Some (1420)) (Some (40)) (None);
  mkEntry 62 "Sm" (Some (940)) (Some (20)) (Some (960)) (Some (40)) (None);
  mkEntry 63 "Eu" (Some (510)) (Some (20)) (Some (520)) (Some (40)) (None);
  mkEntry 64 "Gd" (Some (1050)) (Some (20)) (Some (1070)) (Some (40)) (None);
  mkEntry 65 "Tb" (Some (320)) (Some (30)) (Some (300)) (Some (100)) (None);
  mkEntry 66 "Dy" (Some (1130)) (Some (20)) (Some (1100)) (Some (40)) (None);
  mkEntry 67 "Ho" (Some (470)) (Some (30)) (Some (480)) (Some (110)) (None);
  mkEntry 68 "Er" (Some (920)) (Some (20)) (Some (920)) (Some (50)) (None);
  mkEntry 69 "Tm" (Some (120)) (Some (30)) (Some (100)) (Some (40)) (None);
  mkEntry 70 "Yb" (Some (920)) (Some (20)) (Some (840)) (Some (110)) (None);
  mkEntry 71 "Lu" (Some (90)) (Some (20)) (Some (100)) (Some (90)) (None);
  mkEntry 72 "Hf" (Some (710)) (Some (20)) (Some (850)) (Some (40)) (None);
  mkEntry 73 "Ta" (Some (-120)) (Some (40)) (None) (None) (None);
  mkEntry 74 "W" (Some (650)) (Some (40)) (Some (850)) (Some (120)) (None);
  mkEntry 75 "Re" (Some (260)) (Some (40)) (None) (None) (None);
  mkEntry 76 "Os" (Some (1350)) (Some (30)) (Some (1400)) (Some (80)) (None);
  mkEntry 77 "Ir" (Some (1320)) (Some (20)) (Some (1380)) (Some (70)) (None);
  mkEntry 78 "Pt" (Some (1620)) (Some (30)) (None) (None) (None);
  mkEntry 79 "Au" (Some (800)) (Some (40)) (Some (920)) (Some (100)) (None);
  mkEntry 80 "Hg" (Some (1170)) (Some (80)) (None) (None) (None);
  mkEntry 81 "Tl" (Some (770)) (Some (30)) (Some (900)) (Some (200)) (None);
  mkEntry 82 "Pb" (Some (2040)) (Some (30)) (Some (1750)) (Some (100)) (None);
  mkEntry 83 "Bi" (Some (650)) (Some (40)) (None) (None) (None);
  mkEntry 90 "Th" (Some (60)) (Some (30)) (Some (20)) (Some (100)) (None);
  mkEntry 92 "U" (Some (-540)) (Some (30)) (None) (None) (None)].

(** core/data/asplund2021.csv, row by row (read by core/abundances.py 109-128) *)
Definition asplund2021 : list entry := [
  mkEntry 1 "H" (Some (8220)) (Some (40)) (Some (12000)) (Some (0)) (Some "definition");
  mkEntry 2 "He" (Some (1290)) (Some (180)) (Some (10914)) (Some (13)) (Some "helioseismology");
  mkEntry 3 "Li" (Some (3250)) (Some (40)) (Some (960)) (Some (60)) (Some "meteorites");
  mkEntry 4 "Be" (Some (1320)) (Some (30)) (Some (1380)) (Some (90)) (None);
  mkEntry 5 "B" (Some (2790)) (Some (40)) (Some (2700)) (Some (200)) (None);
  mkEntry 6 "C" (Some (7390)) (Some (40)) (Some (8460)) (Some (40)) (None);
  mkEntry 7 "N" (Some (6260)) (Some (60)) (Some (7830)) (Some (70)) (None);
  mkEntry 8 "O" (Some (8390)) (Some (40)) (Some (8690)) (Some (40)) (None);
  mkEntry 9 "F" (Some (4420)) (Some (60)) (Some (4400)) (Some (250)) (None);
  mkEntry 10 "Ne" (None) (Some (180)) (Some (8060)) (Some (50)) (Some "solar wind");
  mkEntry 11 "Na" (Some (6270)) (Some (40)) (Some (6220)) (Some (30)) (None);
  mkEntry 12 "Mg" (Some (7530)) (Some (20)) (Some (7550)) (Some (30)) (None);
  mkEntry 13 "Al" (Some (6430)) (Some (30)) (Some (6430)) (Some (30)) (None);
  mkEntry 14 "Si" (Some (7510)) (Some (10)) (Some (7510)) (Some (30)) (None);
  mkEntry 15 "P" (Some (5430)) (Some (30)) (Some (5410)) (Some (30)) (None);
  mkEntry 16 "S" (Some (7150)) (Some (20)) (Some (7120)) (Some (30)) (None);
  mkEntry 17 "Cl" (Some (5230)) (Some (60)) (Some (5310)) (Some (200)) (None);
  mkEntry 18 "Ar" (None) (Some (180)) (Some (6380)) (Some (100)) (Some "solar wind");
  mkEntry 19 "K" (Some (5080)) (Some (40)) (Some (5070)) (Some (30)) (None);
  mkEntry 20 "Ca" (Some (6290)) (Some (30)) (Some (6300)) (Some (30)) (None);
  mkEntry 21 "Sc" (Some (3040)) (Some (30)) (Some (3140)) (Some (40)) (None);
  mkEntry 22 "Ti" (Some (4900)) (Some (30)) (Some (4970)) (Some (50)) (None);
  mkEntry 23 "V" (Some (3960)) (Some (30)) (Some (3900)) (Some (80)) (None);
  mkEntry 24 "Cr" (Some (5630)) (Some (20)) (Some (5620)) (Some (40)) (None);
  mkEntry 25 "Mn" (Some (5470)) (Some (30)) (Some (5420)) (Some (60)) (None);
  mkEntry 26 "Fe" (Some (7460)) (Some (20)) (Some (7460)) (Some (40)) (None);
  mkEntry 27 "Co" (Some (4870)) (Some (20)) (Some (4940)) (Some (50)) (None);
  mkEntry 28 "Ni" (Some (6200)) (Some (30)) (Some (6200)) (Some (40)) (None);
  mkEntry 29 "Cu" (Some (4250)) (Some (60)) (Some (4180)) (Some (50)) (None);
  mkEntry 30 "Zn" (Some (4610)) (Some (20)) (Some (4560)) (Some (50)) (None);
  mkEntry 31 "Ga" (Some (3070)) (Some (30)) (Some (3020)) (Some (50)) (None);
  mkEntry 32 "Ge" (Some (3580)) (Some (40)) (Some (3620)) (Some (100)) (None);
  mkEntry 33 "As" (Some (2300)) (Some (40)) (None) (None) (Some "meteorites");
  mkEntry 34 "Se" (Some (3340)) (Some (30)) (None) (None) (Some "meteorites");
  mkEntry 35 "Br" (Some (2540)) (Some (60)) (None) (None) (Some "meteorites");
  mkEntry 36 "Kr" (None) (Some (180)) (Some (3120)) (Some (100)) (Some "solar wind");
  mkEntry 37 "Rb" (Some (2370)) (Some (30)) (Some (2320)) (Some (80)) (None);
  mkEntry 38 "Sr" (Some (2880)) (Some (30)) (Some (2830)) (Some (60)) (None);
  mkEntry 39 "Y" (Some (2150)) (Some (20)) (Some (2210)) (Some (50)) (None);
  mkEntry 40 "Zr" (Some (2530)) (Some (20)) (Some (2590)) (Some (40)) (None);
  mkEntry 41 "Nb" (Some (1420)) (Some (40)) (Some (1470)) (Some (60)) (None);
  mkEntry 42 "Mo" (Some (1930)) (Some (40)) (Some (1880)) (Some (90)) (None);
  mkEntry 44 "Ru" (Some (1770)) (Some (20)) (Some (1750)) (Some (80)) (None);
  mkEntry 45 "Rh" (Some (1040)) (Some (20)) (Some (780)) (Some (110)) (None);
  mkEntry 46 "Pd" (Some (1650)) (Some (20)) (Some (1570)) (Some (100)) (None);
  mkEntry 47 "Ag" (Some (1200)) (Some (40)) (Some (960)) (Some (100)) (None);
  mkEntry 48 "Cd" (Some (1710)) (Some (30)) (None) (None) (Some "meteorites");
  mkEntry 49 "In" (Some (760)) (Some (20)) (Some (800)) (Some (200)) (None);
  mkEntry 50 "Sn" (Some (2070)) (Some (60)) (Some (2020)) (Some (100)) (None);
  mkEntry 51 "Sb" (Some (1010)) (Some (60)) (None) (None) (Some "meteorites");
  mkEntry 52 "Te" (Some (2180)) (Some (30)) (None) (None) (Some "meteorites");
  mkEntry 53 "I" (Some (1550)) (Some (80)) (None) (None) (Some "meteorites");
  mkEntry 54 "Xe" (None) (Some (180)) (Some (2220)) (Some (50)) (Some "nuclear physics");
  mkEntry 55 "Cs" (Some (1080)) (Some (30)) (None) (None) (Some "meteorites");
  mkEntry 56 "Ba" (Some (2180)) (Some (20)) (Some (2270)) (Some (50)) (None);
  mkEntry 57 "La" (Some (1170)) (Some (10)) (Some (1110)) (Some (40)) (None);
  mkEntry 58 "Ce" (Some (1580)) (Some (10)) (Some (1580)) (Some (40)) (None);
  mkEntry 59 "Pr" (Some (760)) (Some (10)) (Some (750)) (Some (50)) (None);
  mkEntry 60 "Nd" (Some (1450)) (Some (10)) (Some (1420)) (Some (40)) (None);
  mkEntry 62 "Sm" (Some (940)) (Some (10)) (Some (950)) (Some (40)) (None);
  mkEntry 63 "Eu" (Some (520)) (Some (10)) (Some (520)) (Some (40)) (None);
  mkEntry 64 "Gd" (Some (1050)) (Some (10)) (Some (1080)) (Some (40)) (None);
  mkEntry 65 "Tb" (Some (310)) (Some (10)) (Some (310)) (Some (100)) (None);
  mkEntry 66 "Dy" (Some (1130)) (Some (10)) (Some (1100)) (Some (40)) (None);
  mkEntry 67 "Ho" (Some (470)) (Some (10)) (Some (480)) (Some (110)) (None);
  mkEntry 68 "Er" (Some (930)) (Some (10)) (Some (930)) (Some (50)) (None);
  mkEntry 69 "Tm" (Some (120)) (Some (10)) (Some (110)) (Some (40)) (None);
  mkEntry 70 "Yb" (Some (920)) (Some (10)) (Some (850)) (Some (110)) (None);
  mkEntry 71 "Lu" (Some (90)) (Some (10)) (Some (100)) (Some (90)) (None);
  mkEntry 72 "Hf" (Some (710)) (Some (10)) (Some (850)) (Some (50)) (None);
  mkEntry 73 "Ta" (Some (-150)) (Some (40)) (None) (None) (Some "meteorites");
  mkEntry 74 "W" (Some (650)) (Some (40)) (Some (790)) (Some (110)) (None);
  mkEntry 75 "Re" (Some (260)) (Some (20)) (None) (None) (Some "meteorites");
  mkEntry 76 "Os" (Some (1350)) (Some (20)) (Some (1350)) (Some (120)) (None);
  mkEntry 77 "Ir" (Some (1320)) (Some (20)) (None) (None) (Some "meteorites");
  mkEntry 78 "Pt" (Some (1610)) (Some (20)) (None) (None) (Some "meteorites");
  mkEntry 79 "Au" (Some (810)) (Some (50)) (Some (910)) (Some (120)) (None);
  mkEntry 80 "Hg" (Some (1170)) (Some (180)) (None) (None) (Some "meteorites");
  mkEntry 81 "Tl" (Some (770)) (Some (50)) (Some (920)) (Some (170)) (None);
  mkEntry 82 "Pb" (Some (2030)) (Some (30)) (Some (1950)) (Some (80)) (None);
  mkEntry 83 "Bi" (Some (650)) (Some (40)) (None) (None) (Some "meteorites");
  mkEntry 90 "Th" (Some (40)) (Some (30)) (Some (30)) (Some (100)) (None);
  mkEntry 92 "U" (Some (-540)) (Some (30)) (None) (None) (Some "meteorites")].
