From Verif Require Import Base CrcSpec FutfSpec FtoaModel PutModel PutSpec PutProof PutProof2 PutProof3 PutExample.
Open Scope Z_scope.

(* C107 *)
Theorem C107_text : forall f cs, Forall scalar cs -> Z.of_nat (length (text cs)) <= 2147483647 -> f_puts f (text cs) = Ok (written f (text cs)).
Proof. exact puts_text. Qed.
Print Assumptions C107_text.
Theorem C107_bytes : forall f s, Forall byte s -> exists cs, reads s cs /\ Forall scalar cs /\ (Z.of_nat (length (text cs)) <= 2147483647 -> f_puts f s = Ok (written f (text cs))).
Proof. exact puts_any. Qed.
Print Assumptions C107_bytes.
Theorem C107_reads : forall f s cs, Forall byte s -> reads s cs -> Z.of_nat (length (text cs)) <= 2147483647 -> f_puts f s = Ok (written f (text cs)).
Proof. exact puts_ok. Qed.
Print Assumptions C107_reads.
Theorem C107_putc : forall f c, byte c -> f_putc f c = Ok (written f (if c <? 128 then [c] else [])).
Proof. exact putc_ok. Qed.
Print Assumptions C107_putc.
Example C107_example : f_puts (empty 100 false) ([97; 195; 169; 226; 130; 98] ++ [240; 159; 152; 128]) = Ok ({| data := [97; 195; 169; 98; 240; 159; 152; 128]; room := 92; mild := false |}, 8).
Proof. exact puts_example. Qed.
Example C107_full_example : f_puts (empty 3 true) [97; 98; 99; 100] = Ok ({| data := [97; 98; 99]; room := 0; mild := true |}, -1).
Proof. exact puts_full. Qed.
Example C107_putc_example : f_putc (empty 10 false) 97 = Ok ({| data := [97]; room := 9; mild := false |}, 1) /\ f_putc (empty 10 false) 195 = Ok (empty 10 false, 0) /\ f_putc (empty 10 false) 169 = Ok (empty 10 false, 0).
Proof. exact putc_example. Qed.

(* C108 *)
Theorem C108_printf : forall fl f ps a o, Forall good ps -> shows fl ps a o -> f_printf fl f (format ps) a = f_puts f o.
Proof. exact printf_ok. Qed.
Print Assumptions C108_printf.
Example C108_good_example : Forall good ex_ps.
Proof. exact ex_good. Qed.
Example C108_shows_example : forall fl, shows fl ex_ps ex_args ex_out.
Proof. exact ex_shows. Qed.
Example C108_example : f_printf 0 (empty 100 false) (format ex_ps) ex_args = Ok ({| data := ex_out; room := 78; mild := false |}, 22).
Proof. exact printf_example. Qed.

(* C109 *)
Theorem C109_float : forall fl x prec fmt, (fmt = 102 \/ SpecFloat.SFeqb x f0 = false \/ prec <= 25) ->
  match ftoa fl x prec fmt with Ok t => (length t <= 31)%nat /\ float_shape x prec fmt t | Ub => False | NoFuel => True end.
Proof. exact ftoa_ok. Qed.
Print Assumptions C109_float.
Theorem C109_refuted : forall fl f, (60 <= fl)%nat -> f_printf fl f [37; 46; 50; 54; 101] [Double f0] = Ub.
Proof. exact overflow. Qed.
Print Assumptions C109_refuted.
Example C109_example : ftoa 60 (fdiv (of_int (-25)) f2) 3 102 = Ok [45; 49; 50; 46; 53; 48; 48] /\ ftoa 60 (fdiv (of_int 25) f2) (-1) 101 = Ok [49; 46; 50; 53; 48; 48; 48; 48; 101; 43; 48; 49].
Proof. exact float_example. Qed.

(* C110 *)
Theorem C110_max_refuted : forall fl f, f_printf fl f [37; 101] [Double dbl_max] = NoFuel.
Proof. exact no_end_max. Qed.
Print Assumptions C110_max_refuted.
Theorem C110_zero_refuted : forall fl f, f_printf fl f [37; 46; 52; 48; 48; 102] [Double f0] = NoFuel.
Proof. exact no_end_zero. Qed.
Print Assumptions C110_zero_refuted.

(* C111 *)
Theorem C111_colon_refuted : forall f, f_printf 60 f [37; 46; 48; 102] [Double big] = f_puts f (58 :: repeat 48 27).
Proof. exact colon. Qed.
Print Assumptions C111_colon_refuted.
Theorem C111_slash_refuted : forall f, f_printf 60 f [37; 46; 49; 56; 102] [Double small] = f_puts f [48; 46; 48; 48; 57; 48; 48; 48; 48; 48; 48; 48; 48; 48; 48; 48; 48; 48; 48; 47].
Proof. exact slash. Qed.
Print Assumptions C111_slash_refuted.

(* C112 *)
Theorem C112_sign_refuted : forall fl f, f_printf fl f [37; 48; 53; 100] [Int (-42)] = f_puts f [48; 48; 45; 52; 50].
Proof. exact sign_wrong. Qed.
Print Assumptions C112_sign_refuted.
Theorem C112_star_refuted : forall fl f, f_printf fl f [37; 42; 100] [Int (-5); Int 7] = f_puts f (repeat 32 (Z.to_nat 4294967290) ++ [55]).
Proof. exact star_wrong. Qed.
Print Assumptions C112_star_refuted.
Theorem C112_binary_refuted : forall fl f, f_printf fl f [37; 108; 108; 98] [Llong 4294967296] = f_puts f (repeat 48 32).
Proof. exact binary_wrong. Qed.
Print Assumptions C112_binary_refuted.
