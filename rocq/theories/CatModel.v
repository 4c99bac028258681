(* Model of kernel/cmd/cmd_cat.c and of f_gets, fatfs/fatfs.c:6178-6255
   (FF_USE_STRFUNC is 1).  A file is the list of bytes not yet read; f_read
   gives as many as asked for, or what is left. *)
From Verif Require Import Base.
Open Scope Z_scope.

Definition is_surrogate (c : Z) : bool := (55296 <=? c) && (c <=? 57343).

(* Lead byte: value bits and number of trailing bytes, fatfs/fatfs.c:6202-6215. *)
Definition lead (dc : Z) : Z * nat :=
  let ct := 0%nat in
  let '(dc, ct) := if Z.land dc 224 =? 192 then (Z.land dc 31, 1%nat) else (dc, ct) in
  let '(dc, ct) := if Z.land dc 240 =? 224 then (Z.land dc 15, 2%nat) else (dc, ct) in
  let '(dc, ct) := if Z.land dc 248 =? 240 then (Z.land dc 7, 3%nat) else (dc, ct) in
  (dc, ct).

(* fatfs/fatfs.c:6221-6226: None if a trailing byte is wrong; 32 bits. *)
Fixpoint trail (dc : Z) (s : list Z) : option Z :=
  match s with
  | [] => Some dc
  | c :: s' => if Z.land c 192 =? 128 then trail (Z.lor (Z.shiftl dc 6 mod 2 ^ 32) (Z.land c 63)) s' else None
  end.

(* fatfs/fatfs.c:6235-6255 *)
Definition put_char (dc : Z) : list Z :=
  if dc <? 128 then [dc]
  else if dc <? 2048 then [Z.lor 192 (Z.land (Z.shiftr dc 6) 31); Z.lor 128 (Z.land dc 63)]
  else if dc <? 65536 then [Z.lor 224 (Z.land (Z.shiftr dc 12) 15); Z.lor 128 (Z.land (Z.shiftr dc 6) 63); Z.lor 128 (Z.land dc 63)]
  else [Z.lor 240 (Z.land (Z.shiftr dc 18) 7); Z.lor 128 (Z.land (Z.shiftr dc 12) 63); Z.lor 128 (Z.land (Z.shiftr dc 6) 63);
        Z.lor 128 (Z.land dc 63)].

(* One round of the loop: what to do next, and the file. *)
Inductive got := Eof | Skip | Char (dc : Z).
Definition get_char (inp : list Z) : got * list Z :=
  match inp with
  | [] => (Eof, [])
  | c :: r =>
      if c <? 128 then (Char c, r)
      else
        let '(dc, ct) := lead c in
        if (ct =? 0)%nat then (Skip, r)
        else if (length r <? ct)%nat then (Eof, [])
        else
          match trail dc (firstn ct r) with
          | None => (Skip, skipn ct r)
          | Some dc => if (dc <? 128) || is_surrogate dc || (1114112 <=? dc) then (Skip, skipn ct r) else (Char dc, skipn ct r)
          end
  end.

(* f_gets with a buffer of [size] bytes; [out]: bytes stored.  The result is
   what is in the buffer before the final NUL, and the file.  Storing outside
   the buffer is undefined. *)
Fixpoint gets (fuel : nat) (size : nat) (out inp : list Z) : res (list Z * list Z) :=
  match fuel with
  | O => NoFuel
  | S k =>
      let fin o i := if (length o <? size)%nat then Ok (o, i) else Ub in
      if Z.of_nat (length out) <? Z.of_nat size - 4 then
        match get_char inp with
        | (Eof, r) => fin out r
        | (Skip, r) => gets k size out r
        | (Char dc, r) =>
            let o := out ++ put_char dc in
            if (size <? length o)%nat then Ub
            else if dc =? 10 then fin o r else gets k size o r
        end
      else fin out inp
  end.

(* puts_with_cr, kernel/cmd/cmd_cat.c:13-38: output and need_cr. *)
Fixpoint puts_with_cr (s : list Z) (need : bool) : list Z * bool :=
  match s with
  | [] => ([], need)
  | ch :: s' =>
      if ch =? 0 then ([], need)
      else
        let '(pre, need) := if ch =? 10 then (if need then ([13], false) else ([], need))
                            else if ch =? 13 then ([], false) else ([], true) in
        let '(r, need) := puts_with_cr s' need in
        (pre ++ ch :: r, need)
  end.

(* display_file, kernel/cmd/cmd_cat.c:40-64, the file being open: buf[1024]. *)
Fixpoint display (fuel : nat) (need : bool) (inp : list Z) : res (list Z) :=
  match fuel with
  | O => NoFuel
  | S k =>
      '(buf, rest) <- gets (S (length inp)) 1024 [] inp ;;
      match buf with
      | [] => Ok (if need then [13; 10] else [])
      | _ => let '(s, need) := puts_with_cr buf need in
             r <- display k need rest ;; Ok (s ++ r)
      end
  end.
Definition cat (file : list Z) : res (list Z) := display (S (length file)) false file.
