(* Model of kernel/fpm_getkey.c and kernel/fpm_editline.c. *)
From Verif Require Import Base Arr Utf8Model.
Open Scope Z_scope.

(* include/fpm/api.h:25-31. *)
Definition K_LEFT : Z := 8592.
Definition K_UP : Z := 8593.
Definition K_RIGHT : Z := 8594.
Definition K_DOWN : Z := 8595.
Definition K_HOME : Z := 8676.
Definition K_END : Z := 8677.
Definition K_DEL : Z := 9249.

Definition is_digit (k : Z) : bool := (48 <=? k) && (k <=? 57).

(* The do-while of fpm_getkey, kernel/fpm_getkey.c:46-51: num is unsigned.
   Result: num, the terminating character, remaining input. *)
Fixpoint read_num (fuel : nat) (num key : Z) (inp : list Z) : res (option (Z * Z * list Z)) :=
  match fuel with
  | O => NoFuel
  | S f =>
      let num' := (num * 10 + (key - 48)) mod 2 ^ 32 in
      match getwch inp with
      | None => Ok None
      | Some (k, r) => if is_digit k then read_num f num' k r else Ok (Some (num', k, r))
      end
  end.

(* fpm_getkey, kernel/fpm_getkey.c:7-67, on the console input bytes.
   Ok None: the input ended, the function is still waiting. *)
Fixpoint getkey (fuel : nat) (inp : list Z) : res (option (Z * list Z)) :=
  match fuel with
  | O => NoFuel
  | S f =>
      match getwch inp with
      | None => Ok None
      | Some (k, r) =>
          if negb (k =? 27) then Ok (Some (k, r)) else
          match getwch r with
          | None => Ok None
          | Some (k1, r1) =>
              if negb (k1 =? 91) && negb (k1 =? 79) then getkey f r1 else
              match getwch r1 with
              | None => Ok None
              | Some (k2, r2) =>
                  if k2 =? 65 then Ok (Some (K_UP, r2))
                  else if k2 =? 66 then Ok (Some (K_DOWN, r2))
                  else if k2 =? 68 then Ok (Some (K_LEFT, r2))
                  else if k2 =? 67 then Ok (Some (K_RIGHT, r2))
                  else if k2 =? 72 then Ok (Some (K_HOME, r2))
                  else if k2 =? 70 then Ok (Some (K_END, r2))
                  else if is_digit k2 then
                    o <- read_num (S (length r2)) 0 k2 r2 ;;
                    match o with
                    | None => Ok None
                    | Some (num, k3, r3) =>
                        if negb (k3 =? 126) then getkey f r3
                        else if num =? 3 then Ok (Some (K_DEL, r3))
                        else getkey f r3
                    end
                  else getkey f r2
              end
          end
      end
  end.
Definition fpm_getkey (inp : list Z) : res (option (Z * list Z)) := getkey (S (length inp)) inp.

(* Call fpm_getkey until it waits for more input. *)
Fixpoint all_keys (fuel : nat) (inp : list Z) : res (list Z) :=
  match fuel with
  | O => NoFuel
  | S f =>
      r <- fpm_getkey inp ;;
      match r with
      | None => Ok []
      | Some (k, inp') => ks <- all_keys f inp' ;; Ok (k :: ks)
      end
  end.

(* FPM_CMDLINE_SIZE, include/fpm/api.h:20. *)
Definition CMDLINE : nat := 128.

(* Local variables of fpm_editline, kernel/fpm_editline.c:60-72, and the
   arrays it was given: buffer, prev_line (None for a null pointer). *)
Record ed := Ed {
  e_buf : list Z;
  e_pos : nat;
  e_next : list Z;
  e_on : bool;
  e_prev : option (list Z) }.

(* memmove of [n] elements; any part outside the array is Ub. *)
Definition memmove (a : list Z) (dst src n : nat) : res (list Z) :=
  if ((dst + n <=? length a) && (src + n <=? length a))%nat%bool
  then Ok (firstn dst a ++ firstn n (skipn src a) ++ skipn (dst + n) a)
  else Ub.

(* The difference of two unsigned values, used as an element count. *)
Definition udiff (a b : nat) : nat := Z.to_nat ((Z.of_nat a - Z.of_nat b) mod 2 ^ 32).

Definition bs : list Z := [8].                          (* fpm_putwch('\b') *)
Definition insert_character : list Z := [27; 91; 64].   (* kernel/fpm_editline.c:12-15 *)
Definition delete_character : list Z := [27; 91; 80].   (* :21-24 *)
Definition erase_to_eol : list Z := [27; 91; 75].       (* :29-32 *)
Fixpoint times (n : nat) (l : list Z) : list Z :=
  match n with O => [] | S k => l ++ times k l end.

(* erase_line, kernel/fpm_editline.c:37-47: buffer, output; the position
   becomes 0. *)
Definition erase_line (buf : list Z) (pos : nat) : res (list Z * list Z) :=
  c <- rd buf 0 ;;
  if c =? 0 then Ok (buf, times pos bs)
  else b <- wr buf 0 0 ;; Ok (b, times pos bs ++ erase_to_eol).

(* Print buffer[i..] up to the terminator, kernel/fpm_editline.c:100-105:
   output and final position. *)
Fixpoint print_rest (fuel : nat) (buf : list Z) (i : nat) : res (list Z * nat) :=
  match fuel with
  | O => NoFuel
  | S f =>
      c <- rd buf i ;;
      if c =? 0 then Ok ([], i)
      else '(o, j) <- print_rest f buf (S i) ;; Ok (putwch c ++ o, j)
  end.

(* while (insert_pos < len), kernel/fpm_editline.c:156-159; [n] = len - i. *)
Fixpoint print_to (n : nat) (buf : list Z) (i : nat) : res (list Z) :=
  match n with
  | O => Ok []
  | S k => c <- rd buf i ;; o <- print_to k buf (S i) ;; Ok (putwch c ++ o)
  end.

(* One iteration of the loop of fpm_editline, kernel/fpm_editline.c:73-204:
   new state, bytes sent to the console, and whether the function returns.
   [bl] is the parameter buffer_length, unsigned. *)
Definition step (bl : Z) (prompt : list Z) (s : ed) (key : Z) : res (ed * list Z * bool) :=
  let '(Ed buf pos nxt on prev) := s in
  if key =? 13 then
    '(o, j) <- print_rest (S (length buf)) buf pos ;;
    Ok (Ed buf j nxt on prev, o, true)
  else if (key =? 8) || (key =? 127) then
    match pos with
    | O => Ok (s, [], false)
    | S p =>
        len <- strwlen buf ;;
        let o := if (pos <? len)%nat then bs ++ delete_character else [8; 32; 8] in
        buf' <- memmove buf p (S p) (udiff len p) ;;
        Ok (Ed buf' p nxt on prev, o, false)
    end
  else if (key =? 4) || (key =? K_DEL) then
    len <- strwlen buf ;;
    if (pos <? len)%nat then
      buf' <- memmove buf pos (S pos) (udiff len pos) ;;
      Ok (Ed buf' pos nxt on prev, delete_character, false)
    else Ok (s, [], false)
  else if (key =? 2) || (key =? K_LEFT) then
    match pos with
    | O => Ok (s, [], false)
    | S p => Ok (Ed buf p nxt on prev, bs, false)
    end
  else if (key =? 6) || (key =? K_RIGHT) then
    len <- strwlen buf ;;
    if (pos <? len)%nat then
      c <- rd buf pos ;; Ok (Ed buf (S pos) nxt on prev, putwch c, false)
    else Ok (s, [], false)
  else if (key =? 1) || (key =? K_HOME) then
    Ok (Ed buf 0 nxt on prev, times pos bs, false)
  else if (key =? 5) || (key =? K_END) then
    len <- strwlen buf ;;
    o <- print_to (len - pos) buf pos ;;
    Ok (Ed buf (Nat.max pos len) nxt on prev, o, false)
  else if key =? 21 then
    '(buf', o) <- erase_line buf pos ;;
    Ok (Ed buf' 0 nxt on prev, o, false)
  else if key =? 12 then
    p <- puts prompt ;;
    t <- wputs buf ;;
    len <- strwlen buf ;;
    Ok (s, [13; 10] ++ p ++ t ++ times (len - pos) bs, false)
  else if (key =? 16) || (key =? K_UP) then
    match on, prev with
    | false, Some pl =>
        '(nxt', _) <- strlcpy nxt buf CMDLINE ;;
        '(buf1, o) <- erase_line buf pos ;;
        '(buf2, _) <- strlcpy buf1 pl CMDLINE ;;
        t <- wputs buf2 ;;
        len <- strwlen buf2 ;;
        Ok (Ed buf2 len nxt' true prev, o ++ t, false)
    | _, _ => Ok (s, [], false)
    end
  else if (key =? 14) || (key =? K_DOWN) then
    match on, prev with
    | true, Some pl =>
        '(pl', _) <- strlcpy pl buf CMDLINE ;;
        '(buf1, o) <- erase_line buf pos ;;
        '(buf2, _) <- strlcpy buf1 nxt CMDLINE ;;
        t <- wputs buf2 ;;
        len <- strwlen buf2 ;;
        Ok (Ed buf2 len nxt false (Some pl'), o ++ t, false)
    | _, _ => Ok (s, [], false)
    end
  else if 32 <=? key then
    len <- strwlen buf ;;
    if Z.of_nat len <? (bl - 1) mod 2 ^ 32 then
      let o := (if (pos <? len)%nat then insert_character else []) ++ putwch key in
      buf' <- memmove buf (S pos) pos (udiff (S len) pos) ;;
      buf'' <- wr buf' pos key ;;
      Ok (Ed buf'' (S pos) nxt on prev, o, false)
    else Ok (s, [], false)
  else Ok (s, [], false).

(* The start of fpm_editline, kernel/fpm_editline.c:62-72.  next_line is an
   uninitialised array: [junk]. *)
Definition start (buf : list Z) (clear : bool) (prompt junk : list Z) (prev : option (list Z)) : res (ed * list Z) :=
  p <- puts prompt ;;
  buf' <- (if clear then wr buf 0 0 else Ok buf) ;;
  t <- (if clear then Ok [] else wputs buf') ;;
  len <- strwlen buf' ;;
  Ok (Ed buf' len junk false prev, p ++ t).

(* The loop over a list of keys; stops at the return key.  Result: state,
   output, whether fpm_editline has returned. *)
Fixpoint keys_loop (bl : Z) (prompt : list Z) (s : ed) (keys : list Z) : res (ed * list Z * bool) :=
  match keys with
  | [] => Ok (s, [], false)
  | k :: ks =>
      '(s', o, fin) <- step bl prompt s k ;;
      if fin then Ok (s', o, true)
      else '(s'', o', f) <- keys_loop bl prompt s' ks ;; Ok (s'', o ++ o', f)
  end.

Definition editline (buf : list Z) (bl : Z) (clear : bool) (prompt junk : list Z) (prev : option (list Z))
  (keys : list Z) : res (ed * list Z * bool) :=
  '(s, o) <- start buf clear prompt junk prev ;;
  '(s', o', f) <- keys_loop bl prompt s keys ;;
  Ok (s', o ++ o', f).

(* The same loop fed with console bytes through fpm_getkey. *)
Fixpoint bytes_loop (fuel : nat) (bl : Z) (prompt : list Z) (s : ed) (inp : list Z) : res (ed * list Z * bool) :=
  match fuel with
  | O => NoFuel
  | S f =>
      r <- fpm_getkey inp ;;
      match r with
      | None => Ok (s, [], false)
      | Some (k, inp') =>
          '(s', o, fin) <- step bl prompt s k ;;
          if fin then Ok (s', o, true)
          else '(s'', o', g) <- bytes_loop f bl prompt s' inp' ;; Ok (s'', o ++ o', g)
      end
  end.
