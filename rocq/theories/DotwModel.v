(* Model of kernel/fpm_get_dotw.c. *)
From Verif Require Import Base Arr.
Open Scope Z_scope.

Definition INT_MAX : Z := 2147483647.
Definition INT_MIN : Z := -2147483648.

(* Signed overflow is undefined. *)
Definition int_of (x : Z) : res Z := if (INT_MIN <=? x) && (x <=? INT_MAX) then Ok x else Ub.

(* kernel/fpm_get_dotw.c:10 *)
Definition offset : list Z := [0; 3; 2; 5; 0; 3; 5; 1; 4; 6; 2; 4].

(* kernel/fpm_get_dotw.c:7-14; / and % truncate.  The partial sums are checked
   in the order of evaluation. *)
Definition fpm_get_dotw (year month day : Z) : res Z :=
  year <- int_of (if month <? 3 then year - 1 else year) ;;
  s1 <- int_of (year + Z.quot year 4) ;;
  s2 <- int_of (s1 - Z.quot year 100) ;;
  s3 <- int_of (s2 + Z.quot year 400) ;;
  o <- (if (1 <=? month) && (month <=? 12) then
          match nth_error offset (Z.to_nat (month - 1)) with Some o => Ok o | None => Ub end
        else Ub) ;;
  s4 <- int_of (s3 + o) ;;
  s5 <- int_of (s4 + day) ;;
  Ok (Z.rem s5 7).
