(* C50: wildcard patterns.
   C51: drive prefixes of paths. *)
From Verif Require Import Base CrcSpec FutfModel FutfSpec FpatModel FpatSpec FpatProof.
Open Scope Z_scope.

(* A name is found exactly when the pattern stands for it and has at most four
   groups of wildcards. *)
Theorem C50_match : forall p n tp tn, Forall char p -> Forall char n -> runs 0 p ->
  exists b, find_match (text p tp) (text n tn) = Ok b /\ (b = true <-> (groups p <= 4)%nat /\ glob p n).
Proof. exact find_ok. Qed.
Print Assumptions C50_match.
(* Matching of any NUL terminated bytes stays within both strings and ends. *)
Theorem C50_safe : forall p n, Forall byte p -> In 0 p -> Forall byte n -> In 0 n -> exists b, find_match p n = Ok b.
Proof. exact find_any. Qed.
Print Assumptions C50_safe.
(* 256 question marks in a row match too short a name. *)
Theorem C50_marks_refuted : exists p n, Forall char p /\ Forall char n /\ (groups p <= 4)%nat /\
  find_match (text p []) (text n []) = Ok true /\ ~ glob p n.
Proof. exact many_marks. Qed.
Print Assumptions C50_marks_refuted.

(* "*.t?t" against "Readme.TXT", and against "notes.doc" *)
Example C50_example :
  let p := [42; 46; 116; 63; 116] in
  Forall char p /\ runs 0 p /\ groups p = 2%nat /\
  find_match (text p []) (text [82; 101; 97; 100; 109; 101; 46; 84; 88; 84] []) = Ok true /\
  find_match (text p []) (text [110; 111; 116; 101; 115; 46; 100; 111; 99] []) = Ok false.
Proof.
  cbv zeta. split; [|split; [|split; [|split]]].
  - repeat (apply Forall_cons; [split; [unfold scalar; lia|discriminate]|]). apply Forall_nil.
  - unfold runs. change (42 =? 63) with false. change (42 =? 42) with true. change (46 =? 63) with false. change (46 =? 42) with false. change (116 =? 63) with false. change (116 =? 42) with false. change (63 =? 63) with true. cbv iota. lia.
  - reflexivity.
  - vm_compute. reflexivity.
  - vm_compute. reflexivity.
Qed.

(* Every path is of one of two kinds. *)
Theorem C51_cases : forall l, Forall byte l -> In 0 l ->
  exists pre c rest, l = pre ++ c :: rest /\ Forall plain_byte pre /\ (c = 58 \/ 0 <= c < 32).
Proof. exact path_cases. Qed.
Print Assumptions C51_cases.
(* With a colon: the named drive is selected and the prefix removed; a name of no
   drive is refused and the path left alone. *)
Theorem C51_prefix : forall pre rest curr, Forall plain_byte pre ->
  exists d, get_ldnumber curr (pre ++ 58 :: rest) = Ok (if d =? -1 then (-1, pre ++ 58 :: rest) else (d, rest)) /\
    (drive_named pre d \/ (d = -1 /\ forall e, ~ drive_named pre e)).
Proof. exact ldnumber_ok. Qed.
Print Assumptions C51_prefix.
(* Without one, the current drive. *)
Theorem C51_default : forall pre c rest curr, Forall plain_byte pre -> 0 <= c < 32 ->
  get_ldnumber curr (pre ++ c :: rest) = Ok (curr, pre ++ c :: rest).
Proof. exact ldnumber_none. Qed.
Print Assumptions C51_default.

(* "Flash:/a", "1:b", "sdx:c", "2:", "a/b:c" and "plain" *)
Example C51_example :
  get_ldnumber 1 [70; 108; 97; 115; 104; 58; 47; 97; 0] = Ok (0, [47; 97; 0]) /\
  get_ldnumber 0 [49; 58; 98; 0] = Ok (1, [98; 0]) /\
  get_ldnumber 0 [115; 100; 120; 58; 99; 0] = Ok (-1, [115; 100; 120; 58; 99; 0]) /\
  get_ldnumber 0 [50; 58; 0] = Ok (-1, [50; 58; 0]) /\
  get_ldnumber 0 [97; 47; 98; 58; 99; 0] = Ok (-1, [97; 47; 98; 58; 99; 0]) /\
  get_ldnumber 1 [112; 108; 97; 105; 110; 0] = Ok (1, [112; 108; 97; 105; 110; 0]) /\
  Forall plain_byte [70; 108; 97; 115; 104].
Proof.
  do 6 (split; [reflexivity|]). repeat (apply Forall_cons; [unfold plain_byte; lia|]). apply Forall_nil.
Qed.
