(* C15-C20: conversion between 16-bit characters and UTF-8.  A text is
   followed by its terminator and arbitrary memory ([tail]). *)
From Verif Require Import Base Arr Utf8Model Utf8Spec Utf8Proof.
Open Scope Z_scope.

Theorem C15_round_trip : forall w n1 n2 d1 d2 tail, Forall wide w ->
  (length w + 3 <= n1)%nat -> (length (utf8 w) < length d1)%nat -> (length w < n2)%nat -> (n2 <= length d2)%nat ->
  exists d1' d2' r1 r2,
    strlcpy_to_utf8 d1 (w ++ 0 :: tail) n1 = Ok (d1', r1) /\
    strlcpy_from_utf8 d2 d1' n2 = Ok (d2', r2) /\
    firstn (S (length w)) d2' = w ++ [0].
Proof. exact round_trip. Qed.
Print Assumptions C15_round_trip.

Theorem C15_encoding : forall dst w tail n, Forall wide w -> (length w + 3 <= n)%nat -> (length (utf8 w) < length dst)%nat ->
  strlcpy_to_utf8 dst (w ++ 0 :: tail) n = Ok (utf8 w ++ 0 :: skipn (S (length (utf8 w))) dst, length w).
Proof. exact to_utf8_all. Qed.
Print Assumptions C15_encoding.

(* "aé€" *)
Example C15_example : Forall wide [97; 233; 8364] /\ utf8 [97; 233; 8364] = [97; 195; 169; 226; 130; 172].
Proof. repeat constructor. Qed.

Theorem C16_strlcpy : forall dst src tail n, Forall (fun c => c <> 0) src -> (n <= length dst)%nat ->
  strlcpy dst (src ++ 0 :: tail) n =
    Ok (if (n =? 0)%nat then dst
        else let k := Nat.min (length src) (pred n) in firstn k src ++ 0 :: skipn (S k) dst, length src).
Proof. exact strlcpy_ok. Qed.
Print Assumptions C16_strlcpy.

Example C16_example :
  strlcpy [1; 1; 1; 1] [104; 101; 108; 108; 111; 0] 3 = Ok ([104; 101; 0; 1], 5%nat) /\
  strlcpy [1; 1; 1; 1] [104; 0; 7] 4 = Ok ([104; 0; 1; 1], 1%nat).
Proof. split; reflexivity. Qed.

(* nitems counts characters, not bytes: six bytes are overrun by three
   characters although nitems is 6. *)
Theorem C17_to_utf8_in_bounds_refuted : exists w d n, Forall wide w /\ (n <= length d)%nat /\
  strlcpy_to_utf8 d (w ++ [0]) n = Ub.
Proof. exact to_utf8_overflow. Qed.
Print Assumptions C17_to_utf8_in_bounds_refuted.

Theorem C17_ascii_in_bounds : forall dst w tail n, Forall (fun c => 0 < c < 128) w -> (n <= length dst)%nat ->
  exists r, strlcpy_to_utf8 dst (w ++ 0 :: tail) n =
    Ok (if (n =? 0)%nat then dst
        else let k := Nat.min (length w) (pred n) in firstn k w ++ 0 :: skipn (S k) dst, r).
Proof. exact to_utf8_ascii. Qed.
Print Assumptions C17_ascii_in_bounds.

(* Three bytes per item are always enough; a prefix of the text is converted. *)
Theorem C17_three_bytes_per_item : forall dst w tail n, Forall wide w -> (3 * n <= length dst)%nat ->
  exists k r, (k <= length w)%nat /\ (k <= pred n)%nat /\ strlcpy_to_utf8 dst (w ++ 0 :: tail) n =
    Ok (if (n =? 0)%nat then dst else utf8 (firstn k w) ++ 0 :: skipn (S (length (utf8 (firstn k w)))) dst, r).
Proof. exact to_utf8_bound. Qed.
Print Assumptions C17_three_bytes_per_item.

(* The shell's call: at most 127 characters into cmd_line[384]. *)
Theorem C17_shell_call : forall w d tail, Forall wide w -> (length w <= 127)%nat -> length d = 384%nat ->
  strlcpy_to_utf8 d (w ++ 0 :: tail) 384 = Ok (utf8 w ++ 0 :: skipn (S (length (utf8 w))) d, length w).
Proof. exact to_utf8_shell. Qed.
Print Assumptions C17_shell_call.

Theorem C18_from_utf8 : forall dst w tail n, Forall wide w -> (n <= length dst)%nat ->
  strlcpy_from_utf8 dst (utf8 w ++ 0 :: tail) n =
    Ok (if (n =? 0)%nat then dst
        else let k := Nat.min (length w) (pred n) in firstn k w ++ 0 :: skipn (S k) dst, length (utf8 w)).
Proof. exact from_utf8_ok. Qed.
Print Assumptions C18_from_utf8.

Example C18_example :
  strlcpy_from_utf8 [1; 1; 1; 1] [97; 195; 169; 226; 130; 172; 0] 3 = Ok ([97; 233; 0; 1], 6%nat).
Proof. reflexivity. Qed.

(* A sequence cut short by the terminator is read past the terminator, by
   fpm_strlcpy_from_utf8 and by fpm_puts. *)
Theorem C18_truncated_text_refuted : exists b d n,
  Forall (fun c => 0 < c < 256) b /\ (length b < n)%nat /\ (n <= length d)%nat /\
  strlcpy_from_utf8 d (b ++ [0]) n = Ub /\ puts (b ++ [0]) = Ub.
Proof. exact from_utf8_overread. Qed.
Print Assumptions C18_truncated_text_refuted.

Theorem C19_getwch_inverts_putwch : forall w r, Forall (fun c => 0 <= c < 65536) w ->
  getwchs (length w) (flat_map putwch w ++ r) = Some (w, r).
Proof. exact getwch_stream. Qed.
Print Assumptions C19_getwch_inverts_putwch.

Theorem C19_puts : forall w tail, Forall wide w -> puts (utf8 w ++ 0 :: tail) = Ok (utf8 w).
Proof. exact puts_text. Qed.
Print Assumptions C19_puts.

Theorem C19_wputs : forall w tail, Forall wide w -> wputs (w ++ 0 :: tail) = Ok (utf8 w).
Proof. exact wputs_text. Qed.
Print Assumptions C19_wputs.

Theorem C20_lengths : forall w t1 t2, Forall wide w ->
  utf8len (utf8 w ++ 0 :: t1) = Ok (length w) /\ strwlen (w ++ 0 :: t2) = Ok (length w).
Proof. exact lens. Qed.
Print Assumptions C20_lengths.
