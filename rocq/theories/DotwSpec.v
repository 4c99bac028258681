(* The Gregorian calendar, counted day by day. *)
From Coq Require Import ZArith Bool.
Open Scope Z_scope.

Record date := Date { year : Z; month : Z; day : Z }.

Definition leap (y : Z) : bool := (y mod 4 =? 0) && (negb (y mod 100 =? 0) || (y mod 400 =? 0)).

Definition month_days (y m : Z) : Z :=
  if m =? 2 then (if leap y then 29 else 28)
  else if (m =? 4) || (m =? 6) || (m =? 9) || (m =? 11) then 30 else 31.

Definition valid (t : date) : Prop :=
  1 <= year t /\ 1 <= month t <= 12 /\ 1 <= day t <= month_days (year t) (month t).

Definition tomorrow (t : date) : date :=
  if day t <? month_days (year t) (month t) then Date (year t) (month t) (day t + 1)
  else if month t <? 12 then Date (year t) (month t + 1) 1
  else Date (year t + 1) 1 1.

(* 1 January of year 1, a Monday. *)
Definition epoch : date := Date 1 1 1.
Definition day_after (n : nat) : date := Nat.iter n tomorrow epoch.
Definition weekday (n : nat) : Z := (1 + Z.of_nat n) mod 7.
