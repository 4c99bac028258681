(* Unicode encodings, by arithmetic. *)
From Verif Require Import Base CrcSpec FutfModel.
Open Scope Z_scope.

(* Unicode scalar values *)
Definition scalar (c : Z) : Prop := 0 <= c < 55296 \/ 57344 <= c < 1114112.

(* Code point c in n bytes, n = 1..4 (Unicode table 3-6). *)
Definition utf8_form (n c : Z) : list Z :=
  if n =? 1 then [c]
  else if n =? 2 then [192 + c / 64; 128 + c mod 64]
  else if n =? 3 then [224 + c / 4096; 128 + c / 64 mod 64; 128 + c mod 64]
  else [240 + c / 262144; 128 + c / 4096 mod 64; 128 + c / 64 mod 64; 128 + c mod 64].

(* The number of bytes of its UTF-8 encoding. *)
Definition utf8_count (c : Z) : Z := if c <? 128 then 1 else if c <? 2048 then 2 else if c <? 65536 then 3 else 4.
Definition utf8_of (c : Z) : list Z := utf8_form (utf8_count c) c.

(* UTF-16, a pair as one number with the high unit on top. *)
Definition utf16_of (c : Z) : Z :=
  if c <? 65536 then c else (55296 + (c - 65536) / 1024) * 65536 + (56320 + (c - 65536) mod 1024).

(* More bytes than needed. *)
Definition overlong (f : list Z) (c : Z) : Prop :=
  exists n, utf8_count c < n <= 4 /\ 128 <= c /\ f = utf8_form n c.

(* Upper case of a code, as a function. *)
Definition upper (c : Z) : Z := match ff_wtoupper c with Ok v => v | _ => c end.
