(** The date text of db/format/ipdb/reader.go:268-270,288-289: time.Unix(build, 0).In(time.UTC).Format("2006-01-02").
    Go's package time (time/time.go absDate, time/format.go), outside /repo: part of the trusted base;
    PropsVersion.v proves that it counts the days of the Gregorian calendar. *)
From Coq Require Import ZArith List.
From Verif Require Import Base NetText.
Import ListNotations.
Open Scope Z_scope.

(* Go time.isLeap, used by Format, called from db/format/ipdb/reader.go:289 *)
Definition isLeap (y : Z) : bool := (y mod 4 =? 0) && (negb (y mod 100 =? 0) || (y mod 400 =? 0)).
(* Go time.daysBefore, used by Format, called from db/format/ipdb/reader.go:289 *)
Definition daysBefore : list Z := [0; 31; 59; 90; 120; 151; 181; 212; 243; 273; 304; 334; 365].
(* Go time.absDate: year and day of the year; day 0 is January 1 of year 1; called from db/format/ipdb/reader.go:289 *)
Definition absYear (day : Z) : Z * Z :=
  let e := day / 146097 in let d := day mod 146097 in
  let n := d / 36524 in let c := n - n / 4 in let d := d - 36524 * c in
  let q := d / 1461 in let d := d - 1461 * q in
  let n := d / 365 in let n := n - n / 4 in
  (400 * e + 100 * c + 4 * q + n + 1, d - 365 * n).
(* Go time.absDate: month and day of the month, the rest of it; called from db/format/ipdb/reader.go:289 *)
Definition absMonth (leap : bool) (yday : Z) : Z * Z :=
  if leap && (yday =? 59) then (2, 29)
  else
    let day := if leap && (59 <? yday) then yday - 1 else yday in
    let month := day / 31 in
    let end_ := nth (Z.to_nat (month + 1)) daysBefore 0 in
    if end_ <=? day then (month + 2, day - end_ + 1)
    else (month + 1, day - nth (Z.to_nat month) daysBefore 0 + 1).
(* Go time.Unix and absDate: the date of a number of days since January 1, 1970; called from db/format/ipdb/reader.go:268-270 *)
Definition dateOf (days : Z) : Z * Z * Z :=
  let ' (y, yday) := absYear (days + 719162) in
  let ' (m, d) := absMonth (isLeap y) yday in (y, m, d).
(* Go time.appendInt: at least [width] digits; called from db/format/ipdb/reader.go:289 *)
Definition padInt (width : nat) (n : Z) : bytes :=
  let d := dec (Z.to_N (Z.abs n)) in
  (if n <? 0 then str "-" else []) ++ repeat x30 (width - length d) ++ d.
(* Format("2006-01-02") at db/format/ipdb/reader.go:289 *)
Definition dateText (build : Z) : bytes :=
  let ' (y, m, d) := dateOf (build / 86400) in
  padInt 4 y ++ str "-" ++ padInt 2 m ++ str "-" ++ padInt 2 d.
