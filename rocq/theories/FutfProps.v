(* C49: file name characters survive UTF-8 conversion.
   C75: upper case conversion of names is sound. *)
From Verif Require Import Base CrcSpec FutfModel FutfSpec FutfProof.
Open Scope Z_scope.

Theorem C49_decode : forall c r, scalar c -> tchar2uni (utf8_of c ++ r) = Ok (Some (utf16_of c), r).
Proof. exact decode_ok. Qed.
Print Assumptions C49_decode.
Theorem C49_encode : forall c n, scalar c -> 0 <= n ->
  put_utf (utf16_of c) n = if n <? utf8_count c then [] else utf8_of c.
Proof. exact encode_ok. Qed.
Print Assumptions C49_encode.

(* Any bytes up to a NUL: the result is a scalar value spelled by the bytes
   consumed, or an error with the pointer unmoved. *)
Theorem C49_decode_any : forall l, Forall byte l -> In 0 l -> exists o r, tchar2uni l = Ok (o, r) /\
  match o with
  | None => r = l
  | Some u => exists c f, scalar c /\ u = utf16_of c /\ l = f ++ r /\ (f = utf8_of c \/ overlong f c)
  end.
Proof. exact decode_any. Qed.
Print Assumptions C49_decode_any.
(* Any 32-bit code: encoded if it is the UTF-16 of a scalar value, otherwise
   nothing is written. *)
Theorem C49_encode_any : forall u n, 0 <= u < 4294967296 -> 0 <= n ->
  (exists c, scalar c /\ u = utf16_of c /\ put_utf u n = (if n <? utf8_count c then [] else utf8_of c)) \/
  ((forall c, scalar c -> u <> utf16_of c) /\ put_utf u n = []).
Proof. exact encode_any. Qed.
Print Assumptions C49_encode_any.
(* Overlong forms, which UTF-8 forbids, are accepted: all those of three and four
   bytes for characters from U+0080 on. *)
Theorem C49_overlong_refuted : forall n c r, scalar c -> 128 <= c -> utf8_count c <= n <= 4 ->
  tchar2uni (utf8_form n c ++ r) = Ok (Some (utf16_of c), r).
Proof. exact decode_form. Qed.
Print Assumptions C49_overlong_refuted.

Example C49_example : tchar2uni [208; 150; 65; 0] = Ok (Some 1046, [65; 0]) /\
  tchar2uni [240; 159; 152; 128; 0] = Ok (Some (55357 * 65536 + 56832), [0]) /\
  tchar2uni [237; 160; 128; 0] = Ok (None, [237; 160; 128; 0]) /\ tchar2uni [192; 175; 0] = Ok (None, [192; 175; 0]) /\
  put_utf (55357 * 65536 + 56832) 4 = [240; 159; 152; 128] /\ put_utf 55357 4 = [] /\ put_utf 1046 1 = [] /\
  tchar2uni [224; 130; 169; 0] = tchar2uni [194; 169; 0] /\ scalar 128512.
Proof.
  split; [reflexivity|]. split; [reflexivity|]. split; [reflexivity|]. split; [reflexivity|]. split; [reflexivity|].
  split; [reflexivity|]. split; [reflexivity|]. split; [reflexivity|]. unfold scalar. lia.
Qed.

(* The compressed tables are walked without leaving them, the result is a
   fixed point, ASCII letters convert to capitals, and nothing else becomes an
   ASCII character or a surrogate. *)
Theorem C75_upper : forall c, 0 <= c < 65536 -> ff_wtoupper c = Ok (upper c) /\ 0 <= upper c < 65536 /\ upper (upper c) = upper c /\
  (128 <= c -> 128 <= upper c) /\ (c < 128 -> upper c = if (97 <=? c) && (c <=? 122) then c - 32 else c) /\
  is_surrogate (upper c) = is_surrogate c.
Proof. exact upper_ok. Qed.
Print Assumptions C75_upper.
Theorem C75_pairs : forall c, 65536 <= c -> ff_wtoupper c = Ok c /\ upper c = c.
Proof. exact upper_pair. Qed.
Print Assumptions C75_pairs.
Example C75_example : upper 1078 = 1046 /\ upper 233 = 201 /\ upper 255 = 376 /\ upper 8560 = 8544.
Proof. vm_compute. auto. Qed.
