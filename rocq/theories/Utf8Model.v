(* Model of the character and string conversions:
   kernel/fpm_putwch.c, fpm_getwch.c, fpm_puts.c, fpm_wputs.c, fpm_strlcpy.c
   and fpm_strwlen.c.  Arrays are lists; an access outside is Ub.  Bytes are
   numbers 0..255, wide characters 0..65535. *)
From Verif Require Import Base Arr.
Open Scope Z_scope.

(* fpm_putwch, kernel/fpm_putwch.c:11-23: the bytes passed to fpm_putchar. *)
Definition putwch (ch : Z) : list Z :=
  if ch <? 128 then [ch]
  else if ch <? 2048 then [Z.lor (Z.shiftr ch 6) 192; Z.lor (Z.land ch 63) 128]
  else [Z.lor (Z.shiftr ch 12) 224; Z.lor (Z.land (Z.shiftr ch 6) 63) 128; Z.lor (Z.land ch 63) 128].

Definition is_ascii (c : Z) : bool := Z.land c 128 =? 0.
Definition is_two (c : Z) : bool := Z.land c 32 =? 0.
(* The value is a uint16_t. *)
Definition dec2 (c1 c2 : Z) : Z := Z.lor (Z.shiftl (Z.land c1 31) 6) (Z.land c2 63).
Definition dec3 (c1 c2 c3 : Z) : Z :=
  Z.lor (Z.lor (Z.shiftl (Z.land c1 15) 12) (Z.shiftl (Z.land c2 63) 6)) (Z.land c3 63).

(* fpm_getwch, kernel/fpm_getwch.c:11-32.  The console input is a list of
   bytes; None means the input ended while a byte was awaited. *)
Definition getwch (inp : list Z) : option (Z * list Z) :=
  match inp with
  | [] => None
  | c1 :: r1 =>
      if is_ascii c1 then Some (c1, r1) else
      match r1 with
      | [] => None
      | c2 :: r2 =>
          if is_two c1 then Some (dec2 c1 c2, r2) else
          match r2 with
          | [] => None
          | c3 :: r3 => Some (dec3 c1 c2 c3, r3)
          end
      end
  end.

(* The shared decoding step of fpm_puts and fpm_strlcpy_from_utf8 once the
   first byte [c1] at index i-1 is known to be non-zero: value and next index. *)
Definition decode (src : list Z) (c1 : Z) (i : nat) : res (Z * nat) :=
  if is_ascii c1 then Ok (c1, i) else
  c2 <- rd src i ;;
  if is_two c1 then Ok (dec2 c1 c2, S i) else
  c3 <- rd src (S i) ;;
  Ok (dec3 c1 c2 c3, S (S i)).

(* fpm_puts, kernel/fpm_puts.c:6-26: the bytes written to the console. *)
Fixpoint puts_from (fuel : nat) (src : list Z) (i : nat) : res (list Z) :=
  match fuel with
  | O => NoFuel
  | S k =>
      c1 <- rd src i ;;
      if c1 =? 0 then Ok [] else
      '(ch, j) <- decode src c1 (S i) ;;
      r <- puts_from k src j ;;
      Ok (putwch ch ++ r)
  end.
Definition puts (src : list Z) : res (list Z) := puts_from (S (length src)) src 0.

(* fpm_wputs, kernel/fpm_wputs.c:6-11. *)
Fixpoint wputs (src : list Z) : res (list Z) :=
  match src with
  | [] => Ub
  | c :: r => if c =? 0 then Ok [] else o <- wputs r ;; Ok (putwch c ++ o)
  end.

(* fpm_strwlen, kernel/fpm_strwlen.c:7-15, and strlen. *)
Fixpoint strwlen (src : list Z) : res nat :=
  match src with
  | [] => Ub
  | c :: r => if c =? 0 then Ok O else n <- strwlen r ;; Ok (S n)
  end.

(* fpm_utf8len, kernel/fpm_strwlen.c:17-25. *)
Fixpoint utf8len (src : list Z) : res nat :=
  match src with
  | [] => Ub
  | c :: r => if c =? 0 then Ok O else
              n <- utf8len r ;; Ok (if Z.land c 192 =? 128 then n else S n)
  end.

(* while (star s++ != 0): index just after the terminator. *)
Fixpoint scan (fuel : nat) (src : list Z) (s : nat) : res nat :=
  match fuel with
  | O => NoFuel
  | S k => c <- rd src s ;; if c =? 0 then Ok (S s) else scan k src (S s)
  end.

(* Common tail of the four copying functions, kernel/fpm_strlcpy.c:54-63 and
   the same lines of the others: terminate when the room ran out, traverse
   the rest of src, return s - src - 1. *)
Definition finish (dst src : list Z) (nitems d s n : nat) : res (list Z * nat) :=
  match n with
  | O =>
      dst' <- (match nitems with O => Ok dst | _ => wr dst d 0 end) ;;
      s' <- scan (S (length src)) src s ;;
      Ok (dst', pred s')
  | _ => Ok (dst, pred s)
  end.

(* The loops: [n] is the value before --n.  Result: dst, d, s, n. *)
Definition loop_out := (list Z * nat * nat * nat)%type.

(* fpm_strlcpy and fpm_strlcpy_unicode, kernel/fpm_strlcpy.c:123-180; the two
   have the same text and differ only in the element type. *)
Fixpoint copy_loop (n : nat) (dst src : list Z) (d s : nat) : res loop_out :=
  match n with
  | O => Ok (dst, d, s, O)
  | S n' =>
      match n' with
      | O => Ok (dst, d, s, O)
      | _ =>
          c <- rd src s ;;
          dst' <- wr dst d c ;;
          if c =? 0 then Ok (dst', S d, S s, n')
          else copy_loop n' dst' src (S d) (S s)
      end
  end.
Definition strlcpy (dst src : list Z) (nitems : nat) : res (list Z * nat) :=
  '(dst', d, s, n) <- copy_loop nitems dst src 0 0 ;; finish dst' src nitems d s n.

(* fpm_strlcpy_from_utf8, kernel/fpm_strlcpy.c:22-64. *)
Fixpoint from_loop (n : nat) (dst src : list Z) (d s : nat) : res loop_out :=
  match n with
  | O => Ok (dst, d, s, O)
  | S n' =>
      match n' with
      | O => Ok (dst, d, s, O)
      | _ =>
          c1 <- rd src s ;;
          if c1 =? 0 then dst' <- wr dst d 0 ;; Ok (dst', S d, S s, n')
          else
            '(ch, s') <- decode src c1 (S s) ;;
            dst' <- wr dst d ch ;;
            from_loop n' dst' src (S d) s'
      end
  end.
Definition strlcpy_from_utf8 (dst src : list Z) (nitems : nat) : res (list Z * nat) :=
  '(dst', d, s, n) <- from_loop nitems dst src 0 0 ;; finish dst' src nitems d s n.

(* Store the bytes [l] at dst[d..]. *)
Fixpoint wr_all (dst : list Z) (d : nat) (l : list Z) : res (list Z * nat) :=
  match l with
  | [] => Ok (dst, d)
  | b :: l' => dst' <- wr dst d b ;; wr_all dst' (S d) l'
  end.

(* fpm_strlcpy_to_utf8, kernel/fpm_strlcpy.c:69-116.  n counts down once per
   character; the tests n < 2 and n < 3 are the code's.  The bytes stored are
   the ones fpm_putwch emits (the expressions are the same). *)
Fixpoint to_loop (n : nat) (dst src : list Z) (d s : nat) : res loop_out :=
  match n with
  | O => Ok (dst, d, s, O)
  | S n' =>
      match n' with
      | O => Ok (dst, d, s, O)
      | _ =>
          ch <- rd src s ;;
          if ch =? 0 then dst' <- wr dst d 0 ;; Ok (dst', S d, S s, n')
          else if (n' <? (if (ch <? 128)%Z then 1 else if (ch <? 2048)%Z then 2 else 3))%nat
          then dst' <- wr dst d 0 ;; Ok (dst', S d, S s, n')
          else '(dst', d') <- wr_all dst d (putwch ch) ;; to_loop n' dst' src d' (S s)
      end
  end.
Definition strlcpy_to_utf8 (dst src : list Z) (nitems : nat) : res (list Z * nat) :=
  '(dst', d, s, n) <- to_loop nitems dst src 0 0 ;; finish dst' src nitems d s n.
