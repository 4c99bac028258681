(* C121-C124: the clock. *)
From Coq Require Import String.
From Verif Require Import Base ExecModel GetoptModel DotwSpec DirModel ClockModel ClockSpec ClockProof ClockExample.
Open Scope Z_scope.

(* C121: the command date *)
Theorem C121_set : forall now prog s fuel, ok now -> prog <> [45; 45] -> plain s -> short s ->
  (forall m d y, triple 47 s m d y -> 1 <= m <= 12 -> 1 <= d <= 31 -> 2000 <= y <= 4095 -> exists w,
     cmd_date (S fuel) now [prog; s] = Ok (Said eol (Clock y m d w (hr now) (mn now) (sc now))) /\ weekday_of (Date y m d) w) /\
  ((forall m d y, triple 47 s m d y -> ~ (1 <= m <= 12 /\ 1 <= d <= 31 /\ 2000 <= y <= 9999)) ->
     cmd_date (S fuel) now [prog; s] = Ok (Said (str "The specified date is not correct." ++ eol ++ [10]) now)).
Proof. exact date_sets. Qed.
Print Assumptions C121_set.
Theorem C121_show : forall now prog fuel, ok now -> prog <> [45; 45] ->
  cmd_date (S (S fuel)) now [prog; str "-t"] = Ok (Said (mdy now ++ eol ++ eol) now) /\
  exists m d, DirSpec.number m (mon now) /\ DirSpec.number d (dom now) /\
  cmd_date (S fuel) now [prog] = Ok (Said (str "Current Date: " ++ day_name (dow now) ++ str " " ++ m ++ str "/" ++ d ++ str "/" ++ four (yr now) ++ eol ++
    str "Type 'date MM/DD/YYYY' to change." ++ eol ++ eol) now).
Proof. exact date_shows. Qed.
Print Assumptions C121_show.
Example C121_example : ok noon /\ (triple 47 d1 2 29 2024 /\ short d1 /\ plain d1) /\
  cmd_date 1 noon [str "date"; d1] = Ok (Said eol (Clock 2024 2 29 4 0 5 59)) /\
  cmd_date 1 noon [str "date"; d4] = Ok (Said (str "The specified date is not correct." ++ eol ++ [10]) noon) /\
  cmd_date 2 noon [str "date"; str "-t"] = Ok (Said (str "03/07/2024" ++ eol ++ eol) noon) /\
  cmd_date 1 noon [str "date"] = Ok (Said (str "Current Date: Thu 3/7/2024" ++ eol ++ str "Type 'date MM/DD/YYYY' to change." ++ eol ++ eol) noon).
Proof. exact date_example. Qed.

(* C122: the command time *)
Theorem C122_set : forall now prog s fuel, ok now -> prog <> [45; 45] -> plain s -> short s ->
  (forall h m x, triple 58 s h m x -> 0 <= h <= 23 -> 0 <= m <= 59 -> 0 <= x <= 59 -> exists w,
     cmd_time (S fuel) now [prog; s] = Ok (Said eol (Clock (yr now) (mon now) (dom now) w h m x)) /\ weekday_of (Date (yr now) (mon now) (dom now)) w) /\
  ((forall h m x, triple 58 s h m x -> ~ (0 <= h <= 23 /\ 0 <= m <= 59 /\ 0 <= x <= 59)) ->
     cmd_time (S fuel) now [prog; s] = Ok (Said (str "The specified time is not correct." ++ eol ++ [10]) now)).
Proof. exact time_sets. Qed.
Print Assumptions C122_set.
Theorem C122_show : forall now prog fuel, ok now -> prog <> [45; 45] ->
  cmd_time (S (S fuel)) now [prog; str "-t"] = Ok (Said (hms (hr now) now ++ eol ++ eol) now) /\
  exists d half, dial (hr now) d half /\
  cmd_time (S fuel) now [prog] = Ok (Said (str "Current Time: " ++ hms d now ++ str " " ++ half ++ eol ++ str "Type 'time hh:mm:ss' to change." ++ eol ++ eol) now).
Proof. exact time_shows. Qed.
Print Assumptions C122_show.
Example C122_example : ok noon /\ (triple 58 t1 23 59 0 /\ short t1 /\ plain t1) /\
  cmd_time 1 noon [str "time"; t1] = Ok (Said eol (Clock 2024 3 7 4 23 59 0)) /\
  cmd_time 1 noon [str "time"; str "24:00:00"] = Ok (Said (str "The specified time is not correct." ++ eol ++ [10]) noon) /\
  cmd_time 2 noon [str "time"; str "-t"] = Ok (Said (str "00:05:59" ++ eol ++ eol) noon) /\
  cmd_time 1 noon [str "time"] = Ok (Said (str "Current Time: 12:05:59 AM" ++ eol ++ str "Type 'time hh:mm:ss' to change." ++ eol ++ eol) noon).
Proof. exact time_example. Qed.

(* C123: time stamps *)
Theorem C123_listed : forall c, ok c -> 1980 <= yr c <= 2107 -> listed c (print_time (get_fattime c)).
Proof. exact lists. Qed.
Print Assumptions C123_listed.
Theorem C123_ordered : forall a b, ok a -> ok b -> 1980 <= yr a <= 2107 -> 1980 <= yr b <= 2107 ->
  (before (fields a) (fields b) <-> get_fattime a < get_fattime b) /\ (fields a = fields b <-> get_fattime a = get_fattime b).
Proof. exact ordered. Qed.
Print Assumptions C123_ordered.
Theorem C123_late_refuted : forall c y, ok c -> 2108 <= yr c -> 1980 <= y <= 2107 -> (yr c - y) mod 128 = 0 ->
  listed (Clock y (mon c) (dom c) (dow c) (hr c) (mn c) (sc c)) (print_time (get_fattime c)).
Proof. exact wraps. Qed.
Print Assumptions C123_late_refuted.
Example C123_example : ok noon /\ print_time (get_fattime noon) = str "2024/3/7    0:05  " /\ ok late /\ print_time (get_fattime late) = str "2072/3/7   12:05  ".
Proof. exact stamp_example. Qed.

(* C124: dates that date accepts *)
Theorem C124_calendar_refuted : exists s m d y, triple 47 s m d y /\ short s /\ plain s /\ ~ valid (Date y m d) /\
  forall now prog fuel, ok now -> prog <> [45; 45] -> exists w, cmd_date (S fuel) now [prog; s] = Ok (Said eol (Clock y m d w (hr now) (mn now) (sc now))).
Proof. exact calendar_refuted. Qed.
Print Assumptions C124_calendar_refuted.
Theorem C124_ignored_refuted : forall now prog s fuel m d y, prog <> [45; 45] -> plain s -> short s -> triple 47 s m d y -> 1 <= m <= 12 -> 1 <= d <= 31 -> 4095 < y <= 9999 ->
  cmd_date (S fuel) now [prog; s] = Ok (Said eol now).
Proof. exact date_far. Qed.
Print Assumptions C124_ignored_refuted.
Example C124_example : triple 47 d3 1 1 9000 /\ short d3 /\ plain d3.
Proof. exact ex_t3. Qed.
