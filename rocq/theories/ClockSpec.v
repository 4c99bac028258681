(* What setting and showing the clock should do. *)
From Coq Require Import String.
From Verif Require Import Base ExecModel DotwSpec DirSpec ClockModel.
Open Scope Z_scope.

(* What the hardware can hold. *)
Definition ok (c : clock) : Prop :=
  0 <= yr c <= 4095 /\ 1 <= mon c <= 12 /\ 1 <= dom c <= 31 /\ 0 <= dow c <= 6 /\ 0 <= hr c <= 23 /\ 0 <= mn c <= 59 /\ 0 <= sc c <= 59.

(* --- reading --- *)

Definition blank (c : Z) : Prop := c = 32 \/ 9 <= c <= 13.
Definition figure (c : Z) : Prop := 48 <= c <= 57.
(* [s] is a way to write the number [n]. *)
Definition writes (s : list Z) (n : Z) : Prop := exists sp sg ds, s = sp ++ sg ++ ds /\ Forall blank sp /\ Forall figure ds /\ ds <> [] /\
  (sg = [] /\ n = value ds \/ sg = [43] /\ n = value ds \/ sg = [45] /\ n = - value ds).
(* [s] starts with three numbers, a [sep] between them. *)
Definition triple (sep : Z) (s : list Z) (a b c : Z) : Prop := exists sa sb sc rest,
  s = sa ++ [sep] ++ sb ++ [sep] ++ sc ++ rest /\ writes sa a /\ writes sb b /\ writes sc c /\ (forall x r, rest = x :: r -> ~ figure x).
(* No number of more than nine figures. *)
Definition short (s : list Z) : Prop := forall p ds q, s = p ++ ds ++ q -> Forall figure ds -> (length ds <= 9)%nat.
(* Not for an option. *)
Definition plain (s : list Z) : Prop := hd 0 s <> 45 \/ s = [45].

(* The day of the week, if the date is one of the calendar. *)
Definition weekday_of (t : date) (w : Z) : Prop := 0 <= w <= 6 /\ forall n, day_after n = t -> w = weekday n.

(* --- showing --- *)

Definition two (n : Z) : list Z := [48 + n / 10; 48 + n mod 10].
Definition four (n : Z) : list Z := two (n / 100) ++ two (n mod 100).
Definition eol : list Z := [13; 10].
Definition mdy (c : clock) : list Z := two (mon c) ++ str "/" ++ two (dom c) ++ str "/" ++ four (yr c).
Definition hms (h : Z) (c : clock) : list Z := two h ++ str ":" ++ two (mn c) ++ str ":" ++ two (sc c).
Definition day_name (w : Z) : list Z := nth (Z.to_nat w) [str "Sun"; str "Mon"; str "Tue"; str "Wed"; str "Thu"; str "Fri"; str "Sat"] [].
(* [h] on a dial of twelve hours, before or after noon *)
Definition dial (h : Z) (d : Z) (half : list Z) : Prop :=
  (1 <= d <= 12) /\ (half = str "AM" /\ 0 <= h < 12 /\ h mod 12 = d mod 12 \/ half = str "PM" /\ 12 <= h < 24 /\ h mod 12 = d mod 12).

(* --- stamps --- *)

(* A date as the command dir shows it. *)
Definition listed (c : clock) (s : list Z) : Prop := exists m d h,
  number m (mon c) /\ number d (dom c) /\ number h (hr c) /\
  s = four (yr c) ++ str "/" ++ m ++ str "/" ++ d ++ repeat 32 (5 - length m - length d) ++ repeat 32 (2 - length h) ++ h ++ str ":" ++ two (mn c) ++ str "  ".

(* The seconds are counted in pairs. *)
Definition fields (c : clock) : list Z := [yr c; mon c; dom c; hr c; mn c; sc c / 2].
Inductive before : list Z -> list Z -> Prop :=
| Now x y l l' : x < y -> before (x :: l) (y :: l')
| Later x l l' : before l l' -> before (x :: l) (x :: l').
