(** utilities.py:410-444: UTC seconds to and from 'YYYY-MM-DDTHH:MM:SS'. The datetime library is
    external; its documented proleptic Gregorian calendar is written out here the way the library
    does it (ordinals with 400/100/4/1 year cycles). *)
From Coq Require Import Ascii.
From Verif Require Import Py.
Open Scope Z_scope.

Definition is_leap (y : Z) : bool :=
  (y mod 4 =? 0) && (negb (y mod 100 =? 0) || (y mod 400 =? 0)).
Definition days_before_year (y : Z) : Z :=
  let n := y - 1 in n * 365 + n / 4 - n / 100 + n / 400.
(** Days before each month of a common year. *)
Definition month_starts : list Z := [0; 31; 59; 90; 120; 151; 181; 212; 243; 273; 304; 334].
Definition days_before_month (y m : Z) : Z :=
  default 0 (month_starts !! Z.to_nat (m - 1)) + (if (2 <? m) && is_leap y then 1 else 0).
Definition days_in_month (y m : Z) : Z :=
  default 0 ([31; 28; 31; 30; 31; 30; 31; 31; 30; 31; 30; 31] !! Z.to_nat (m - 1)) +
  (if (m =? 2) && is_leap y then 1 else 0).
Definition ymd_to_ord (y m d : Z) : Z := days_before_year y + days_before_month y m + d.

(** Month and day from the zero-based day of the year. *)
Definition month_day (y n : Z) : Z * Z :=
  let m := (n + 50) / 32 in
  let m' := if n <? days_before_month y m then m - 1 else m in
  (m', n - days_before_month y m' + 1).
Definition ord_to_ymd (ordinal : Z) : Z * Z * Z :=
  let n := ordinal - 1 in
  let n400 := n / 146097 in let n := n mod 146097 in
  let n100 := n / 36524 in let n := n mod 36524 in
  let n4 := n / 1461 in let n := n mod 1461 in
  let n1 := n / 365 in let n := n mod 365 in
  let y := n400 * 400 + n100 * 100 + n4 * 4 + n1 + 1 in
  if (n1 =? 4) || (n100 =? 4) then (y - 1, 12, 31)
  else let md := month_day y n in (y, md.1, md.2).

(** 1970-01-01 *)
Definition epoch_ord : Z := 719163.

Definition digit (n : Z) : Ascii.ascii := Ascii.ascii_of_nat (48 + Z.to_nat (n mod 10)).
Definition pad2 (n : Z) : list Ascii.ascii := [digit (n / 10); digit n].
Definition pad4 (n : Z) : list Ascii.ascii := [digit (n / 1000); digit (n / 100); digit (n / 10); digit n].

(** utilities.py:410-426. Years outside 1..9999 raise (ValueError or OverflowError).
    Simplification: years below 1000 are written with four digits. *)
Definition utc_seconds_to_formatted_string (t : Z) : res string :=
  let '(y, m, d) := ord_to_ymd (t / 86400 + epoch_ord) in
  let s := t mod 86400 in
  if (1 <=? y) && (y <=? 9999) then
    Ok (string_of_list_ascii (pad4 y ++ ["-"%char] ++ pad2 m ++ ["-"%char] ++ pad2 d ++ ["T"%char] ++
          pad2 (s / 3600) ++ [":"%char] ++ pad2 (s mod 3600 / 60) ++ [":"%char] ++ pad2 (s mod 60)))
  else Raise ValueError.

Definition read_digit (c : Ascii.ascii) : option Z :=
  let n := Z.of_nat (Ascii.nat_of_ascii c) in
  if (48 <=? n) && (n <=? 57) then Some (n - 48) else None.
Fixpoint read_number (acc : Z) (l : list Ascii.ascii) : option Z :=
  match l with
  | [] => Some acc
  | c :: r => match read_digit c with Some d => read_number (acc * 10 + d) r | None => None end
  end.
Definition is_char (c d : Ascii.ascii) : bool := if decide (c = d) then true else false.

(** utilities.py:429-444. Simplification: strptime also accepts unpadded months, days and hours; the
    strings parsed by the code are those it formatted itself. *)
Definition formatted_string_to_utc_seconds (s : string) : res Z :=
  match list_ascii_of_string s with
  | [y1; y2; y3; y4; c1; m1; m2; c2; d1; d2; c3; h1; h2; c4; n1; n2; c5; s1; s2] =>
      match read_number 0 [y1; y2; y3; y4], read_number 0 [m1; m2], read_number 0 [d1; d2],
            read_number 0 [h1; h2], read_number 0 [n1; n2], read_number 0 [s1; s2] with
      | Some y, Some m, Some d, Some h, Some n, Some sec =>
          if is_char c1 "-"%char && is_char c2 "-"%char && is_char c3 "T"%char && is_char c4 ":"%char && is_char c5 ":"%char &&
             (1 <=? y) && (1 <=? m) && (m <=? 12) && (1 <=? d) && (d <=? days_in_month y m) &&
             (h <=? 23) && (n <=? 59) && (sec <=? 59)
          then Ok ((ymd_to_ord y m d - epoch_ord) * 86400 + h * 3600 + n * 60 + sec)
          else Raise ValueError
      | _, _, _, _, _, _ => Raise ValueError
      end
  | _ => Raise ValueError
  end.
