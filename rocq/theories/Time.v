(** The text of a time in ls (cmd/ls.go:58-60), with the parts of Go's package time that it uses (Go 1.18, the
    version of go.mod: time.Time.Format, absDate, absClock in time/time.go and time/format.go). *)
From Verif Require Import Go ToString.

(** time/time.go: seconds from the beginning of the year -292277022399 to 1970 *)
Definition unixToAbsolute : Z := 9223372028715321600.
(* time/time.go, daysBefore *)
Definition daysBefore : list Z := [0; 31; 59; 90; 120; 151; 181; 212; 243; 273; 304; 334; 365].
(* time/time.go, isLeap *)
Definition isLeap (y : Z) : bool := (Z.rem y 4 =? 0) && (negb (Z.rem y 100 =? 0) || (Z.rem y 400 =? 0)).
(* time/time.go, absDate, the first half: year since absoluteZeroYear and day of the year, from 0 *)
Definition absYear (abs : Z) : Z * Z :=
  let d := abs / 86400 in
  let n := d / 146097 in let y := 400 * n in let d := d - 146097 * n in
  let n := d / 36524 in let n := n - n / 4 in let y := y + 100 * n in let d := d - 36524 * n in
  let n := d / 1461 in let y := y + 4 * n in let d := d - 1461 * n in
  let n := d / 365 in let n := n - n / 4 in let y := y + n in let d := d - 365 * n in
  (y, d).
Definition absoluteZeroYear : Z := -292277022399.
(* time/time.go, absDate, the second half: month from 1 and day from 1, of a day of the year *)
Definition monthDay (leap : bool) (yday : Z) : Z * Z :=
  if leap && (yday =? 59) then (2, 29)
  else
    let day := if leap && (59 <? yday) then yday - 1 else yday in
    let m := day / 31 in
    let e := nth (Z.to_nat (m + 1)) daysBefore 0 in
    if e <=? day then (m + 2, day - e + 1) else (m + 1, day - nth (Z.to_nat m) daysBefore 0 + 1).
Definition absDate (abs : Z) : Z * Z * Z :=
  let (y, yday) := absYear abs in
  let year := y + absoluteZeroYear in
  let (m, d) := monthDay (isLeap year) yday in (year, m, d).
(* time/time.go, absClock: hour and minute *)
Definition absClock (abs : Z) : Z * Z :=
  let sec := abs mod 86400 in let hour := sec / 3600 in (hour, (sec - hour * 3600) / 60).
(* time/format.go, longMonthNames, cut to three bytes *)
Definition month_names : list (list byte) :=
  [[x4a; x61; x6e]; [x46; x65; x62]; [x4d; x61; x72]; [x41; x70; x72]; [x4d; x61; x79]; [x4a; x75; x6e];
   [x4a; x75; x6c]; [x41; x75; x67]; [x53; x65; x70]; [x4f; x63; x74]; [x4e; x6f; x76]; [x44; x65; x63]].
(* time/format.go, appendInt with width 2 *)
Definition dec2 (n : Z) : list byte := if n <? 10 then x30 :: dec n else dec n.
(* time/time.go, Time.abs.  [zone sec] is the offset of the local time zone at that time, which Go takes from TZ or
   /etc/localtime; sums are int64, the result uint64 *)
Definition absTime (zone : Z -> Z) (t : Z * Z) : Z := u64 (i64 (i64 (fst t + zone (fst t)) + unixToAbsolute)).
(* ls.go:58-60, with the layout "Jan _2 15:04" *)
Definition shortTime (zone : Z -> Z) (t : Z * Z) : list byte :=
  let abs := absTime zone t in
  let '(_, m, d) := absDate abs in
  let (h, mi) := absClock abs in
  nth (Z.to_nat (m - 1)) month_names [] ++ x20 :: (if d <? 10 then [x20] else []) ++ dec d ++ x20 :: dec2 h ++ x3a :: dec2 mi.
