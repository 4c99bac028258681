(* C29: day of the week. *)
From Verif Require Import Base DotwModel DotwSpec DotwProof.
Open Scope Z_scope.

(* Every valid date up to year 10^9 is the n-th day after 1 January of year 1
   for some n, and fpm_get_dotw returns the weekday of that day. *)
Theorem C29_every_date : forall t, valid t -> year t <= 1000000000 ->
  exists n, day_after n = t /\ fpm_get_dotw (year t) (month t) (day t) = Ok (weekday n).
Proof. exact dotw_all. Qed.
Print Assumptions C29_every_date.

Theorem C29_every_day : forall n, year (day_after n) <= 1000000000 ->
  fpm_get_dotw (year (day_after n)) (month (day_after n)) (day (day_after n)) = Ok (weekday n).
Proof. exact dotw_day. Qed.
Print Assumptions C29_every_day.

(* 29 February 2024, a Thursday. *)
Example C29_example : valid (Date 2024 2 29) /\ fpm_get_dotw 2024 2 29 = Ok 4 /\
  day_after 59 = Date 1 3 1.
Proof. split; [repeat split; discriminate|]. split; reflexivity. Qed.
