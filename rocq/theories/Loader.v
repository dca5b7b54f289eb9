(** solar_activity/base.py 89-224 [DataLoader] with sidc.py 201-295 and lisird.py 106-211: the dated cache of downloaded data. *)
From Coq Require Import List String Ascii Bool Arith ZArith.
From Verif Require Import Py PyStr.
Import ListNotations.
Open Scope list_scope.
Open Scope string_scope.

(* ---------------------------------------------------------------- dates in path names. the pattern of eight digits, solar_activity/base.py 17, 169-204 *)
Definition is_digit (c : ascii) : bool := let n := nat_of_ascii c in Nat.leb 48 n && Nat.leb n 57.
(** The first n characters if all are digits. the pattern of eight digits, solar_activity/base.py 17, 169-204 *)
Fixpoint digits (n : nat) (s : string) : option string :=
  match n with
  | O => Some ""
  | S k => match s with
           | EmptyString => None
           | String c r => if is_digit c then option_map (String c) (digits k r) else None
           end
  end.
(** re.findall(r"\d{4}\d{2}\d{2}", s): eight digits, leftmost first, without overlap (base.py 17, 180; ASCII digits).
    [skip] counts the characters of the last match still to be passed over. *)
Fixpoint findall (skip : nat) (s : string) : list string :=
  match s with
  | EmptyString => []
  | String c r =>
      match skip with
      | S k => findall k r
      | O => match digits 8 s with Some d => d :: findall 7 r | None => findall 0 r end
      end
  end.
(** ditto: base.py 17, 180 *)
Fixpoint number (acc : Z) (s : string) : Z :=
  match s with EmptyString => acc | String c r => number (acc * 10 + (Z.of_nat (nat_of_ascii c) - 48))%Z r end.
(** ditto: base.py 17, 180 *)
Definition date_num (s : string) : Z := number 0 s.
(** pd.to_datetime of eight digits: a date of the calendar within the range of nanosecond time stamps. pd.to_datetime as used in solar_activity/base.py 169-204 *)
Definition month_days (y m : Z) : Z :=
  if (m =? 2)%Z then (if ((y mod 4 =? 0) && negb (y mod 100 =? 0) || (y mod 400 =? 0))%Z then 29 else 28)%Z
  else if existsb (Z.eqb m) [4; 6; 9; 11]%Z then 30%Z else 31%Z.
(** ditto: base.py 17, 180 *)
Definition valid_date (s : string) : bool :=
  let n := date_num s in
  let y := (n / 10000)%Z in let m := (n / 100 mod 100)%Z in let d := (n mod 100)%Z in
  (1678 <=? y)%Z && (y <=? 2261)%Z && (1 <=? m)%Z && (m <=? 12)%Z && (1 <=? d)%Z && (d <=? month_days y m)%Z.
(** base.py 169-204 *)
Fixpoint nub (l : list string) : list string :=
  match l with [] => [] | x :: r => if mem_str x r then nub r else x :: nub r end.
(** base.py 169-204 *)
Fixpoint ends_with (suf s : string) : bool :=
  String.eqb suf s || match s with EmptyString => false | String _ r => ends_with suf r end.

(* ---------------------------------------------------------------- the directory *)
(** What is under data_path: file names (relative) with contents. A file can be torn if the process died while writing it. the directory of solar_activity/base.py 89-132, 169-224 *)
Inductive content := Data (downloaded_on : string) | Torn.
(** the directory of solar_activity/base.py 89-132, 169-224 *)
Definition dir := list (string * content).
(** the directory of solar_activity/base.py 89-132, 169-224 *)
Fixpoint read (d : dir) (f : string) : option content :=
  match d with [] => None | (g, c) :: r => if String.eqb g f then Some c else read r f end.
(** the directory of solar_activity/base.py 89-132, 169-224 *)
Definition unlink (d : dir) (f : string) : dir := filter (fun e => negb (String.eqb (fst e) f)) d.
(** the directory of solar_activity/base.py 89-132, 169-224 *)
Definition write (d : dir) (f : string) (c : content) : dir := (f, c) :: unlink d f.

(** base.py 169-204: the date of the cache; [root] is str(data_path). *)
Definition epoch_date : string := "19700101".
(** ditto: base.py 169-204 *)
Definition get_data_ctime (root : string) (d : dir) : result string :=
  let files := map (fun e => root ++ "/" ++ fst e) (filter (fun e => ends_with ".csv" (fst e)) d) in
  match files with
  | [] => Ok epoch_date                                                                      (* 182-186 *)
  | _ => match nub (flat_map (findall 0) files) with                                         (* 188-190 *)
         | [x] => if valid_date x then Ok x else Err ValueError                              (* 200-201 *)
         | _ => Err AssertionError
         end
  end.
(** base.py 90-105: the object remembers the date it found when it was made. *)
Record loader := mkL { l_root : string; l_ctime : string }.
(** ditto: base.py 90-105 *)
Definition new_loader (root : string) (d : dir) : result loader := rmap (mkL root) (get_data_ctime root d).

(** The steps of download_data, one directory operation each. SIDC (sidc.py 272-278): new csv, then remove the old one.
    LISIRD (lisird.py 178-194): new csv, new json, then remove both old ones. Writing is two steps: created, completed. *)
Inductive source := SIDC | LISIRD.
(** ditto: sidc.py 272-278 *)
Definition download_steps (src : source) (new old : string) : list (dir -> dir) :=
  let put f := [fun d => write d f Torn; fun d => write d f (Data new)] in
  match src with
  | SIDC => app (put (new ++ ".csv")) [fun d => unlink d (old ++ ".csv")]
  | LISIRD => app (put (new ++ ".csv")) (app (put (new ++ ".json"))
                [fun d => unlink d (old ++ ".csv"); fun d => unlink d (old ++ ".json")])
  end.
(** ditto: sidc.py 272-278 *)
Definition run_steps (st : list (dir -> dir)) (d : dir) : dir := fold_left (fun x f => f x) st d.
(** base.py 212-224, [t] the date when it is called *)
Definition stale (l : loader) (t : string) : bool := (date_num (l_ctime l) <? date_num t)%Z.
(** ditto: base.py 212-224 *)
Definition maybe_update (src : source) (l : loader) (t : string) (d : dir) : dir :=
  if stale l t then run_steps (download_steps src t (l_ctime l)) d else d.
(** base.py 121-131, lisird.py 196-211: the date is asked again for the file that is read. *)
Definition load_data (src : source) (l : loader) (t1 t2 : string) (d : dir) : dir * result content :=
  let d' := maybe_update src l t1 d in
  (d', match read d' (t2 ++ ".csv") with
       | None => Err FileNotFoundError
       | Some c => match src with
                   | SIDC => Ok c
                   | LISIRD => match read d' (t2 ++ ".json") with Some _ => Ok c | None => Err FileNotFoundError end
                   end
       end).
(** Making an indicator (sidc.py 298-330, lisird.py 214-231): a new loader, then load. *)
Definition session (src : source) (root t1 t2 : string) (d : dir) : dir * result content :=
  match new_loader root d with
  | Err e => (d, Err e)
  | Ok l => load_data src l t1 t2 d
  end.
(** The process dies after [k] of the directory operations. solar_activity/base.py 212-224 with sidc.py 209-296, interrupted *)
Definition crashed (src : source) (root t : string) (k : nat) (d : dir) : dir :=
  match new_loader root d with
  | Err _ => d
  | Ok l => if stale l t then run_steps (firstn k (download_steps src t (l_ctime l))) d else d
  end.
