(** The Gregorian calendar, and what a short time should look like. *)
From Verif Require Import Go ToString.

Definition leap_year (y : Z) : bool := (y mod 4 =? 0) && negb (y mod 100 =? 0) || (y mod 400 =? 0).
(** thirty days has September, April, June and November *)
Definition month_length (y m : Z) : Z :=
  if m =? 2 then if leap_year y then 29 else 28
  else if (m =? 4) || (m =? 6) || (m =? 9) || (m =? 11) then 30 else 31.
(** the day after a date (year, month, day) *)
Definition tomorrow (t : Z * Z * Z) : Z * Z * Z :=
  let '(y, m, d) := t in
  if d <? month_length y m then (y, m, d + 1) else if m <? 12 then (y, m + 1, 1) else (y + 1, 1, 1).
(** the date of every day, counted from the first of January 1970 in both directions *)
Definition calendar (date : Z -> Z * Z * Z) : Prop :=
  date 0 = (1970, 1, 1) /\ forall n, date (n + 1) = tomorrow (date n) /\ let '(y, m, d) := date n in 1 <= m <= 12 /\ 1 <= d <= month_length y m.
(** names of the months, their first three letters *)
Definition months : list Z := [0x4a616e; 0x466562; 0x4d6172; 0x417072; 0x4d6179; 0x4a756e; 0x4a756c; 0x417567; 0x536570; 0x4f6374; 0x4e6f76; 0x446563].
Definition month_text (m : Z) : list byte := map (fun s => zb (nth (Z.to_nat (m - 1)) months 0 / s mod 256)) [65536; 256; 1].
Definition digit (n : Z) : byte := zb (48 + n).
(** the day with a space for a missing tens digit, hours and minutes with two digits *)
Definition time_text (m d h mi : Z) : list byte :=
  month_text m ++ [x20; if d <? 10 then x20 else digit (d / 10); digit (d mod 10); x20; digit (h / 10); digit (h mod 10); x3a; digit (mi / 10); digit (mi mod 10)].
