(* Theorems about the command printf. *)
From Coq Require Import String.
From Verif Require Import Base PrintfModel PrintfSpec PrintfProof PrintfProof2 PrintfProof3 PrintfProof4 PrintfExample.
Open Scope string_scope. Open Scope list_scope. Open Scope Z_scope.

(* C101: escapes *)
Theorem C101_escape : forall s, Forall (fun b => b <> 0) s -> (exists t, escaped s t) /\
  forall t, escaped s t -> exists rest, escape (S (S (length s))) (s ++ [0]) 0 0 = Ok (t ++ 0 :: rest) /\ (length t + length rest = length s)%nat.
Proof. exact escapes. Qed.
Print Assumptions C101_escape.
Example C101_example : Forall (fun b => b <> 0) (w "a\tb\0101\\\q\") /\ escaped (w "a\tb\0101\\\q\") [97; 9; 98; 8; 49; 92; 113; 92].
Proof. exact escape_example. Qed.

(* C102: conversions *)
Theorem C102_once : forall strtol s ps args o, Forall (fun b => b <> 0) s -> escaped s (format ps) -> Forall good ps -> fits 0 ps -> prints strtol ps args o [] ->
  exists n0, forall n, (n0 <= n)%nat -> printf_main n strtol (s :: args) = Ok (o, 0).
Proof. exact once. Qed.
Print Assumptions C102_once.
Example C102_once_example : Forall (fun b => b <> 0) (w "%-*.3d %s%%:%c\n") /\ escaped (w "%-*.3d %s%%:%c\n") (format ex1) /\ Forall good ex1 /\ fits 0 ex1 /\ prints dec ex1 (map w ["5"; "42"; "total"; "xyz"]) out1 [] /\
  go ["%-*.3d %s%%:%c\n"; "5"; "42"; "total"; "xyz"] = Ok (out1, 0).
Proof. exact once_example. Qed.
Theorem C102_repeat : forall strtol s ps args o, Forall (fun b => b <> 0) s -> escaped s (format ps) -> Forall good ps -> fits 0 ps -> ~ In Pct ps -> repeats strtol ps args o ->
  exists n0, forall n, (n0 <= n)%nat -> printf_main n strtol (s :: args) = Ok (o, 0).
Proof. exact many. Qed.
Print Assumptions C102_repeat.
Example C102_repeat_example : Forall (fun b => b <> 0) (w "%s=%d\n") /\ escaped (w "%s=%d\n") (format ex2) /\ Forall good ex2 /\ fits 0 ex2 /\ ~ In Pct ex2 /\ repeats dec ex2 (map w ["a"; "1"; "b"; "'x"; "c"]) (row "a" 1 ++ row "b" 120 ++ row "c" 0) /\
  go ["%s=%d\n"; "a"; "1"; "b"; "'x"; "c"] = Ok (row "a" 1 ++ row "b" 120 ++ row "c" 0, 0).
Proof. exact many_example. Qed.

(* C103: arguments without a conversion *)
Theorem C103_plain : forall strtol s t args, Forall (fun b => b <> 0) s -> escaped s t -> Forall (fun b => b <> 0 /\ b <> 37) t -> args <> [] ->
  exists n0, forall n, (n0 <= n)%nat -> printf_main n strtol (s :: args) = Ok (map Byte t ++ [Msg Missing []], 1).
Proof. exact plain. Qed.
Print Assumptions C103_plain.
Example C103_example : Forall (fun b => b <> 0) (w "hi\n") /\ escaped (w "hi\n") [104; 105; 10] /\ Forall (fun b => b <> 0 /\ b <> 37) [104; 105; 10] /\ go ["hi\n"; "x"] = Ok ([Byte 104; Byte 105; Byte 10; Msg Missing []], 1).
Proof. exact plain_example. Qed.

(* C104: formats beyond the memory of printf *)
Theorem C104_percent_refuted : forall strtol t fl args, Forall (fun b => b <> 0 /\ b <> 37 /\ b <> 92) t -> Forall isflag fl -> forall n, printf_main (S n) strtol ((t ++ 37 :: fl) :: args) = Ub.
Proof. exact percent_end. Qed.
Print Assumptions C104_percent_refuted.
Theorem C104_long_refuted : forall strtol t args, Forall (fun b => b <> 0 /\ b <> 37 /\ b <> 92) t -> (61 <= length t)%nat -> forall n, printf_main (S n) strtol ((t ++ [37; 100]) :: args) = Ub.
Proof. exact long_text. Qed.
Print Assumptions C104_long_refuted.
Theorem C104_zero_refuted : forall strtol, strtol (w "0") = (0, 1%nat, false) -> strtol (w "5") = (5, 1%nat, false) -> forall n, printf_main (S n) strtol (map w ["%*d"; "0"; "5"]) = Ub.
Proof. exact width_zero. Qed.
Print Assumptions C104_zero_refuted.
Theorem C104_large_refuted : forall strtol, strtol (w "70000") = (70000, 5%nat, false) -> forall n, printf_main (S n) strtol (map w ["%*d"; "70000"]) = Ub.
Proof. exact width_large. Qed.
Print Assumptions C104_large_refuted.
Example C104_example : go ["100%"] = Ub /\ go ["%*d"; "0"; "5"] = Ub /\ go ["%*d"; "70000"] = Ub /\ dec (w "0") = (0, 1%nat, false) /\ dec (w "5") = (5, 1%nat, false) /\ dec (w "70000") = (70000, 5%nat, false).
Proof. repeat split; reflexivity. Qed.

(* C105: a format with %% used again *)
Theorem C105_refuted : forall strtol, (forall d, 49 <= d <= 57 -> strtol [d] = (d - 48, 1%nat, false)) -> forall n,
  printf_main (8 + n) strtol (map w ["%d%%\n"; "1"; "2"]) = Ok ([Conv [] None None 100 (VLong 1); Byte 37; Byte 10; Conv [] None None 100 (VLong 2); Msg Wrong []], 1).
Proof. exact reuse_refuted. Qed.
Print Assumptions C105_refuted.
Example C105_example : go ["%d%%\n"; "1"; "2"] = Ok ([Conv [] None None 100 (VLong 1); Byte 37; Byte 10; Conv [] None None 100 (VLong 2); Msg Wrong []], 1).
Proof. reflexivity. Qed.

(* C106: %X *)
Theorem C106_refuted : forall strtol, strtol (w "255") = (255, 3%nat, false) -> forall n, printf_main (3 + n) strtol (map w ["%X"; "255"]) = Ok ([Conv [] None None 120 (VLong 255)], 0).
Proof. exact capital_refuted. Qed.
Print Assumptions C106_refuted.
Example C106_example : dec (w "255") = (255, 3%nat, false).
Proof. reflexivity. Qed.
