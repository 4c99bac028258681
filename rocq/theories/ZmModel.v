(* Model of apps/rz: znumbers.c, zheaders.c, zserial.c and rz.c.  Console input
   is a list of bytes; reading from the empty list waits (None).  ZRESULT is a
   uint16_t.  [sg]: whether char is signed (zm_recv converts the char returned
   by fpm_getchar to ZRESULT).  Debug output and delays are left out. *)
From Verif Require Import Base Arr CrcModel.
Open Scope Z_scope.

(* apps/rz/ztypes.h:31-113 *)
Definition XON : Z := 17.
Definition XOFF : Z := 19.
Definition LF : Z := 10.
Definition CR : Z := 13.
Definition ZPAD : Z := 42.
Definition ZDLE : Z := 24.
Definition CAN : Z := 24.
Definition ZCRCE : Z := 104.
Definition ZCRCG : Z := 105.
Definition ZCRCQ : Z := 106.
Definition ZCRCW : Z := 107.
Definition ZRUB0 : Z := 108.
Definition ZRUB1 : Z := 109.
Definition ZBIN16 : Z := 65.
Definition ZHEX : Z := 66.
Definition ZBIN32 : Z := 67.
Definition ZRQINIT : Z := 0.
Definition ZRINIT : Z := 1.
Definition ZACK : Z := 3.
Definition ZFILE : Z := 4.
Definition ZNAK : Z := 6.
Definition ZFIN : Z := 8.
Definition ZRPOS : Z := 9.
Definition ZDATA : Z := 10.
Definition ZEOF : Z := 11.
Definition OK : Z := 256.
Definition FIN : Z := 512.
Definition BAD_DIGIT : Z := 4096.
Definition CLOSED : Z := 8192.
Definition BAD_FRAME_TYPE : Z := 16384.
Definition CORRUPTED : Z := 20480.
Definition BAD_CRC : Z := 24576.
Definition OUT_OF_RANGE : Z := 28672.
Definition OUT_OF_SPACE : Z := 32768.
Definition CANCELLED : Z := 36864.
Definition BAD_ESCAPE : Z := 40960.

(* apps/rz/ztypes.h:115-136, apps/rz/zserial.h:35 *)
Definition is_error (x : Z) : bool := negb (Z.land x 61440 =? 0).
Definition is_fin (x : Z) : bool := Z.land x FIN =? FIN.
Definition zvalue (x : Z) : Z := Z.land x 255.
Definition noncontrol (x : Z) : bool := negb (Z.land x 224 =? 0).
Definition NTOB (n1 n2 : Z) : Z := Z.lor (Z.shiftl n1 4) n2.
Definition BMSN (b : Z) : Z := Z.shiftr (Z.land b 240) 4.
Definition BLSN (b : Z) : Z := Z.land b 15.
Definition BTOW (b1 b2 : Z) : Z := Z.lor (Z.shiftl b1 8) b2.
Definition WMSB (w : Z) : Z := Z.shiftr (Z.land w 65280) 8.
Definition WLSB (w : Z) : Z := Z.land w 255.
Definition BTODW (b1 b2 b3 b4 : Z) : Z :=
  Z.lor (Z.lor (Z.lor (Z.shiftl b4 24) (Z.shiftl b3 16)) (Z.shiftl b2 8)) b1.

(* --- znumbers.c --- *)

(* zm_hex_to_nybble, apps/rz/znumbers.c:29-67 *)
Definition zm_hex_to_nybble (c : Z) : Z :=
  if (48 <=? c) && (c <=? 57) then c - 48
  else if (97 <=? c) && (c <=? 102) then c - 87
  else BAD_DIGIT.

(* zm_nybble_to_hex, apps/rz/znumbers.c:69-107 *)
Definition zm_nybble_to_hex (n : Z) : Z :=
  if (0 <=? n) && (n <=? 9) then n + 48
  else if (10 <=? n) && (n <=? 15) then n + 87
  else OUT_OF_RANGE.

(* zm_byte_to_hex, apps/rz/znumbers.c:109-127: the two bytes stored.  The error
   branches cannot be taken for a uint8_t. *)
Definition zm_byte_to_hex (b : Z) : list Z := [zm_nybble_to_hex (BMSN b); zm_nybble_to_hex (BLSN b)].

(* zm_hex_to_byte, apps/rz/znumbers.c:129-142.  The arguments are converted to
   unsigned char by the caller. *)
Definition zm_hex_to_byte (c1 c2 : Z) : Z :=
  let n1 := zm_hex_to_nybble (zvalue c1) in
  let n2 := zm_hex_to_nybble (zvalue c2) in
  if (n1 =? BAD_DIGIT) || (n2 =? BAD_DIGIT) then BAD_DIGIT else NTOB n1 n2.

(* --- zheaders.c --- *)

(* A header is its first five bytes in memory order: type, f3, f2, f1, f0. *)

(* zm_calc_hdr_crc, apps/rz/zheaders.c:30-40 *)
Definition hdr_crc (h : list Z) : Z := fold_left (fun crc ch => update_crc16_ccitt ch crc) h CRC_START_XMODEM.
Definition zm_calc_hdr_crc (h : list Z) : list Z := h ++ [WMSB (hdr_crc h); WLSB (hdr_crc h)].

(* zm_to_hex_header, apps/rz/zheaders.c:72-98, with max_len = HEX_HDR_STR_LEN:
   the 17 bytes stored for the seven header bytes. *)
Definition zm_to_hex_header (h7 : list Z) : list Z :=
  [ZHEX] ++ flat_map zm_byte_to_hex h7 ++ [CR; Z.lor LF 128].

(* --- zserial.c --- *)

(* zm_recv, apps/rz/rz.c:38-42: char to uint16_t *)
Definition recv (sg : bool) (c : Z) : Z := if sg && (128 <=? c) then c + 65280 else c.

(* zm_read_escaped after ZDLE, apps/rz/zserial.c:156-195 *)
Definition next_can (sg : bool) (p : Z * list Z) : option (Z * list Z) :=
  let '(c, r) := p in
  if is_error c then Some (c, r)
  else if c =? CAN then match r with [] => None | b :: r' => Some (recv sg b, r') end
  else Some (c, r).

Definition esc_value (c : Z) : Z :=
  if is_error c then c
  else if c =? CAN then CANCELLED
  else if c =? ZCRCE then Z.lor FIN ZCRCE
  else if c =? ZCRCG then Z.lor FIN ZCRCG
  else if c =? ZCRCQ then Z.lor FIN ZCRCQ
  else if c =? ZCRCW then Z.lor FIN ZCRCW
  else if c =? ZRUB0 then 127
  else if c =? ZRUB1 then 255
  else if Z.land c 96 =? 64 then Z.lxor c 64
  else BAD_ESCAPE.

Definition obind {A B} (o : option A) (f : A -> option B) : option B :=
  match o with Some a => f a | None => None end.

Definition after_zdle (sg : bool) (inp : list Z) : option (Z * list Z) :=
  match inp with
  | [] => None
  | b :: r =>
      obind (next_can sg (recv sg b, r)) (fun p =>
      obind (next_can sg p) (fun p =>
      obind (next_can sg p) (fun p => Some (esc_value (fst p), snd p))))
  end.

(* zm_read_escaped, apps/rz/zserial.c:74-196 *)
Fixpoint read_escaped (sg : bool) (inp : list Z) : option (Z * list Z) :=
  match inp with
  | [] => None
  | b :: r =>
      let c := recv sg b in
      if noncontrol c || is_error c then Some (c, r)
      else if (c =? XON) || (c =? Z.lor XON 128) || (c =? XOFF) || (c =? Z.lor XOFF 128) then read_escaped sg r
      else if c =? ZDLE then after_zdle sg r
      else Some (c, r)
  end.

(* zm_read_crlf, apps/rz/zserial.c:28-56 *)
Definition is_lf (c : Z) : bool := (c =? LF) || (c =? Z.lor LF 128).
Definition is_cr (c : Z) : bool := (c =? CR) || (c =? Z.lor CR 128).
Definition read_crlf (sg : bool) (inp : list Z) : option (Z * list Z) :=
  obind (read_escaped sg inp) (fun '(c, r) =>
  if is_error c then Some (c, r)
  else if is_lf c then Some (OK, r)
  else if is_cr c then
    obind (read_escaped sg r) (fun '(c, r) =>
    if is_error c then Some (c, r) else if is_lf c then Some (OK, r) else Some (CORRUPTED, r))
  else Some (CORRUPTED, r)).

(* recv_data_block, apps/rz/zserial.c:199-221.  [k]: how many bytes may still be
   stored (max - *len).  Result: code, buffer, length, rest of the input. *)
Fixpoint recv_data_block (sg : bool) (k : nat) (buf : list Z) (len : nat) (inp : list Z)
    : res (option (Z * list Z * nat * list Z)) :=
  match k with
  | O => Ok (Some (OUT_OF_SPACE, buf, len, inp))
  | S k' =>
      match read_escaped sg inp with
      | None => Ok None
      | Some (c, r) =>
          if is_error c then Ok (Some (c, buf, len, r))
          else
            buf <- wr buf len (zvalue c) ;;
            if is_fin c then Ok (Some (c, buf, S len, r))
            else recv_data_block sg k' buf (S len) r
      end
  end.

(* [n] bytes by zm_read_escaped, as in apps/rz/zserial.c:234-257 and the loops
   of the binary header readers: inl error, or the bytes. *)
Fixpoint read_bytes (sg : bool) (n : nat) (inp : list Z) : option ((Z + list Z) * list Z) :=
  match n with
  | O => Some (inr [], inp)
  | S k =>
      obind (read_escaped sg inp) (fun '(c, r) =>
      if is_error c then Some (inl c, r)
      else obind (read_bytes sg k r) (fun '(x, r) =>
           Some (match x with inl e => inl e | inr l => inr (zvalue c :: l) end, r)))
  end.

(* zm_read_data_block, apps/rz/zserial.c:223-288.  [len] is never 0 after a
   frame end, so zm_calc_data_crc32 does not use strlen. *)
Definition zm_read_data_block (sg in32 : bool) (buf : list Z) (max : nat) (inp : list Z)
    : res (option (Z * list Z * nat * list Z)) :=
  d <- recv_data_block sg max buf 0 inp ;;
  match d with
  | None => Ok None
  | Some (c, buf, len, r) =>
      if is_error c then Ok (Some (c, buf, len, r))
      else match read_bytes sg (if in32 then 4 else 2)%nat r with
           | None => Ok None
           | Some (inl e, r) => Ok (Some (e, buf, len, r))
           | Some (inr l, r) =>
               let good :=
                 if in32 then BTODW (nth 0 l 0) (nth 1 l 0) (nth 2 l 0) (nth 3 l 0) =? zm_calc_data_crc32 (firstn len buf)
                 else BTOW (nth 0 l 0) (nth 1 l 0) =? zm_calc_data_crc (firstn len buf) in
               Ok (Some (if good then c else BAD_CRC, buf, len, r))
           end
  end.

(* zm_await_zdle, apps/rz/zserial.c:290-324: the input behind the ZDLE, or an
   error code. *)
Fixpoint await_zdle (sg : bool) (inp : list Z) : option (Z * list Z) :=
  match inp with
  | [] => None
  | b :: r =>
      let c := recv sg b in
      if is_error c then Some (c, r)
      else if c =? ZDLE then Some (OK, r)
      else await_zdle sg r
  end.

(* The loop of zm_read_hex_header, apps/rz/zserial.c:337-380. *)
Fixpoint read_hex_bytes (sg : bool) (n : nat) (inp : list Z) : option ((Z + list Z) * list Z) :=
  match n with
  | O => Some (inr [], inp)
  | S k =>
      match inp with
      | [] => None
      | b1 :: r =>
          let c1 := recv sg b1 in
          if is_error c1 then Some (inl c1, r)
          else if zvalue c1 =? ZEOF then Some (inl CLOSED, r)
          else match r with
               | [] => None
               | b2 :: r =>
                   let c2 := recv sg b2 in
                   if is_error c2 then Some (inl c2, r)
                   else if zvalue c2 =? ZEOF then Some (inl CLOSED, r)
                   else
                     let b := zm_hex_to_byte c1 c2 in
                     if is_error b then Some (inl b, r)
                     else obind (read_hex_bytes sg k r) (fun '(x, r) =>
                          Some (match x with inl e => inl e | inr l => inr (zvalue b :: l) end, r))
               end
      end
  end.

(* zm_check_header_crc16/32, apps/rz/zheaders.c:100-116; the rest of the header
   readers, apps/rz/zserial.c:326-468: code, header bytes, rest. *)
Definition check16 (x : Z + list Z) : Z * list Z :=
  match x with
  | inl e => (e, [])
  | inr l => (if BTOW (nth 5 l 0) (nth 6 l 0) =? hdr_crc (firstn 5 l) then OK else BAD_CRC, firstn 5 l)
  end.
Definition check32 (x : Z + list Z) : Z * list Z :=
  match x with
  | inl e => (e, [])
  | inr l => (if BTODW (nth 5 l 0) (nth 6 l 0) (nth 7 l 0) (nth 8 l 0) =? zm_calc_data_crc32 (firstn 5 l) then OK else BAD_CRC,
              firstn 5 l)
  end.

(* zm_await_header, apps/rz/zserial.c:470-529: code, header bytes, in_32bit_block
   (None: unchanged), rest. *)
Fixpoint await_header (fuel : nat) (sg : bool) (inp : list Z) : res (option (Z * list Z * option bool * list Z)) :=
  match fuel with
  | O => NoFuel
  | S k =>
      match await_zdle sg inp with
      | None => Ok None
      | Some (e, r) =>
          if negb (e =? OK) then Ok (Some (CLOSED, [], None, r))
          else match read_escaped sg r with
               | None => Ok None
               | Some (t, r) =>
                   if t =? CANCELLED then Ok (Some (CANCELLED, [], None, r))
                   else if is_error t then await_header k sg r
                   else if zvalue t =? ZHEX then
                     match read_hex_bytes sg 7 r with
                     | None => Ok None
                     | Some (x, r) =>
                         let '(e, h) := check16 x in
                         if e =? OK then
                           match read_crlf sg r with
                           | None => Ok None
                           | Some (e, r) => Ok (Some (e, h, Some false, r))
                           end
                         else Ok (Some (e, h, Some false, r))
                     end
                   else if zvalue t =? ZBIN16 then
                     match read_bytes sg 7 r with
                     | None => Ok None
                     | Some (x, r) => let '(e, h) := check16 x in Ok (Some (e, h, Some false, r))
                     end
                   else if zvalue t =? ZBIN32 then
                     match read_bytes sg 9 r with
                     | None => Ok None
                     | Some (x, r) => let '(e, h) := check32 x in Ok (Some (e, h, Some true, r))
                     end
                   else Ok (Some (BAD_FRAME_TYPE, [], None, r))
               end
      end
  end.

(* zm_send_sz, apps/rz/zserial.c:531-544, on the memory from the buffer on: the
   bytes sent. *)
Fixpoint zm_send_sz (mem : list Z) : res (list Z) :=
  match mem with
  | [] => Ub
  | c :: r => if c =? 0 then Ok [] else l <- zm_send_sz r ;; Ok (c :: l)
  end.

(* just_send_hex_hdr and zm_send_hex_hdr, apps/rz/zserial.c:546-574; [after]: the
   memory behind buf. *)
Definition zm_send_hex_hdr (h : list Z) (after : list Z) : res (list Z) :=
  s <- zm_send_sz (zm_to_hex_header (zm_calc_hdr_crc h) ++ after) ;;
  Ok ([ZPAD; ZPAD; ZDLE] ++ s ++ [XON]).

(* --- rz.c --- *)

Definition DATA_BUF_LEN : nat := 2048.

(* zm_send_pos_hdr, zm_send_flags_hdr: header bytes in memory order
   (apps/rz/zserial.c:584-621). *)
Definition pos_hdr (type pos : Z) : list Z :=
  [type; Z.land pos 255; Z.land (Z.shiftr pos 8) 255; Z.land (Z.shiftr pos 16) 255; Z.land (Z.shiftr pos 24) 255].
Definition flags_hdr (type f0 f1 f2 f3 : Z) : list Z := [type; f3; f2; f1; f0].

(* What rz does to the outside: headers sent and file system calls. *)
Inductive event :=
| Send (h : list Z)
| Open (name : list Z)
| Write (data : list Z)
| Close.

(* The C string at the start of a buffer. *)
Fixpoint cstring (b : list Z) : res (list Z) :=
  match b with
  | [] => Ub
  | c :: r => if c =? 0 then Ok [] else s <- cstring r ;; Ok (c :: s)
  end.

Record rzst := Rz { r_buf : list Z; r_in32 : bool; r_open : bool; r_size : Z; r_space : nat }.

Definition cleanup (s : rzst) : list event := if r_open s then [Close] else [].

Definition rcons {A} (e : list A) (r : res (list A)) : res (list A) := l <- r ;; Ok (e ++ l).

(* rz(), apps/rz/rz.c:56-332, from the top of the frame loop ([indata] false) or
   of the data loop ([indata] true).  The send functions always return OK, since
   zm_send does.  f_open succeeds when [open_ok name]; f_write stores up to
   [r_space] more bytes and never fails otherwise.  [after]: the memory behind
   data_buf.  The result is the list of events until the program stops or waits
   for input. *)
Fixpoint rz (fuel : nat) (sg : bool) (open_ok : list Z -> bool) (after : list Z) (indata : bool) (s : rzst) (inp : list Z) : res (list event) :=
  match fuel with
  | O => NoFuel
  | S k =>
      let loop := rz k sg open_ok after in
      if indata then
        d <- zm_read_data_block sg (r_in32 s) (r_buf s) DATA_BUF_LEN inp ;;
        match d with
        | None => Ok []
        | Some (c, buf, len, r) =>
            let s := Rz buf (r_in32 s) (r_open s) (r_size s) (r_space s) in
            if negb (r_open s) then Ok []
            else if c =? CANCELLED then Ok (cleanup s)
            else if is_error c then rcons [Send (pos_hdr ZRPOS (r_size s))] (loop false s r)
            else
              let data := firstn (len - 1) buf in
              let n := Nat.min (length data) (r_space s) in
              let w := Write (firstn n data) in
              if (n <? length data)%nat then Ok (w :: cleanup s)
              else
                let s := Rz buf (r_in32 s) true ((r_size s + Z.of_nat (length data)) mod 4294967296) (r_space s - n) in
                let ack := Send (pos_hdr ZACK (r_size s)) in
                if c =? Z.lor FIN ZCRCE then rcons [w] (loop false s r)
                else if c =? Z.lor FIN ZCRCG then rcons [w] (loop true s r)
                else if c =? Z.lor FIN ZCRCQ then rcons [w; ack] (loop true s r)
                else if c =? Z.lor FIN ZCRCW then rcons [w; ack] (loop false s r)
                else rcons [w] (loop true s r)
        end
      else
        a <- await_header (S (length inp)) sg inp ;;
        match a with
        | None => Ok []
        | Some (e, h, b32, r) =>
            let s := Rz (r_buf s) (match b32 with Some b => b | None => r_in32 s end) (r_open s) (r_size s) (r_space s) in
            if e =? CANCELLED then Ok (cleanup s)
            else if e =? OK then
              let type := nth 0 h 0 in
              if (type =? ZRQINIT) || (type =? ZEOF) then
                rcons [Send (flags_hdr ZRINIT 34 0 0 0)] (loop false s r)
              else if type =? ZFIN then Ok (Send (pos_hdr ZFIN 0) :: cleanup s)
              else if type =? ZFILE then
                d <- zm_read_data_block sg (r_in32 s) (r_buf s) DATA_BUF_LEN r ;;
                match d with
                | None => Ok []
                | Some (c, buf, len, r) =>
                    let s := Rz buf (r_in32 s) (r_open s) (r_size s) (r_space s) in
                    if c =? CANCELLED then Ok (cleanup s)
                    else if is_error c then loop false s r
                    else
                      name <- cstring (buf ++ after) ;;
                      if open_ok name then
                        let s := Rz buf (r_in32 s) true (r_size s) (r_space s) in
                        rcons [Open name; Send (pos_hdr ZRPOS (r_size s))] (loop false s r)
                      else Ok [Open name]
                end
              else if type =? ZDATA then loop true s r
              else loop false s r
            else rcons [Send (pos_hdr ZNAK (r_size s))] (loop false s r)
        end
  end.

(* [junk]: the contents of data_buf at the start.  Each step of the loops takes
   input, so the bound on their number is never reached (ZmProof). *)
Definition rz_main (sg : bool) (open_ok : list Z -> bool) (junk after : list Z) (space : nat) (inp : list Z) : res (list event) :=
  rz (S (length inp)) sg open_ok after false (Rz junk false false 0 space) inp.
