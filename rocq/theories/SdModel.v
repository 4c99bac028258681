(* Model of the SD card driver, pico/sd_pico/sd_card.c (SD_CRC_ENABLED, crc_on)
   with pico/sd_pico/sd_spi.c, and of the drive 1 branches of pico/diskio.c.
   The card is whatever answers: the bytes received on the SPI bus, the
   outcomes of the timeout checks and the states of the card-detect pin are
   three arbitrary input lists; running out of one is NoFuel, so statements
   about all finished runs quantify over all lists.  Every byte exchanged is
   logged.  Not modelled: DMA timeouts, mutexes, clock rates and the level of
   the select line (the fill bytes sent around its changes are). *)
From Verif Require Import Base CrcModel DiskModel.
Open Scope Z_scope.

Record sd := mkSd {
  inp : list Z;               (* bytes still to be received *)
  clk : list bool;            (* outcomes of timeout checks: true = time left *)
  det : list bool;            (* outcomes of card-detect reads *)
  log : list (Z * Z);         (* bytes exchanged: sent, received; oldest first *)
  sectors : Z; card_type : Z;
  noinit : bool; nodisk : bool;        (* m_Status: MEDIA_NOINIT, MEDIA_NODISK *)
  oem_id : list Z; product_name : list Z; serial : Z }.

Definition set_sectors s v := mkSd (inp s) (clk s) (det s) (log s) v (card_type s) (noinit s) (nodisk s) (oem_id s) (product_name s) (serial s).
Definition set_type s v := mkSd (inp s) (clk s) (det s) (log s) (sectors s) v (noinit s) (nodisk s) (oem_id s) (product_name s) (serial s).
Definition set_status s i d := mkSd (inp s) (clk s) (det s) (log s) (sectors s) (card_type s) i d (oem_id s) (product_name s) (serial s).
Definition set_ids s o p n := mkSd (inp s) (clk s) (det s) (log s) (sectors s) (card_type s) (noinit s) (nodisk s) o p n.

(* Driver code as state transformers. *)
Definition M (A : Type) : Type := sd -> res (A * sd).
Definition ret {A} (a : A) : M A := fun s => Ok (a, s).
Definition mbind {A B} (m : M A) (k : A -> M B) : M B :=
  fun s => match m s with Ok (a, s') => k a s' | Ub => Ub | NoFuel => NoFuel end.
Notation "x <~ m ;; k" := (mbind m (fun x => k)) (at level 61, m at next level, right associativity).
Notation "' p <~ m ;; k" := (mbind m (fun p => k)) (at level 61, p pattern, m at next level, right associativity).
Definition get {A} (f : sd -> A) : M A := fun s => Ok (f s, s).
Definition upd_sd (f : sd -> sd) : M unit := fun s => Ok (tt, f s).

(* sd_spi_write, sd_spi.c:106-119; also each byte of sd_spi_transfer. *)
Definition spi_write (v : Z) : M Z := fun s =>
  match inp s with
  | [] => NoFuel
  | b :: r => Ok (b, mkSd r (clk s) (det s) (log s ++ [(v, b)]) (sectors s) (card_type s) (noinit s) (nodisk s)
                          (oem_id s) (product_name s) (serial s))
  end.

(* 0 < absolute_time_diff_us(get_absolute_time(), timeout_time) *)
Definition time_left : M bool := fun s =>
  match clk s with
  | [] => NoFuel
  | b :: r => Ok (b, mkSd (inp s) r (det s) (log s) (sectors s) (card_type s) (noinit s) (nodisk s)
                          (oem_id s) (product_name s) (serial s))
  end.

(* The card-detect condition of sd_card_detect, sd_card.c:625-630: true when the
   board has no card-detect pin or the pin says so. *)
Definition read_detect : M bool := fun s =>
  match det s with
  | [] => NoFuel
  | b :: r => Ok (b, mkSd (inp s) (clk s) r (log s) (sectors s) (card_type s) (noinit s) (nodisk s)
                          (oem_id s) (product_name s) (serial s))
  end.

Fixpoint send (l : list Z) : M unit :=
  match l with
  | [] => ret tt
  | b :: r => _ <~ spi_write b ;; send r
  end.

Fixpoint receive (n : nat) : M (list Z) :=
  match n with
  | O => ret []
  | S k => b <~ spi_write 255 ;; r <~ receive k ;; ret (b :: r)
  end.

(* Error codes, pico/sd_pico/sd_card.h:58-69 *)
Definition E_NONE := 0.
Definition E_UNSUPPORTED := -5002.
Definition E_PARAMETER := -5003.
Definition E_NO_DEVICE := -5005.
Definition E_WRITE_PROTECTED := -5006.
Definition E_UNUSABLE := -5007.
Definition E_NO_RESPONSE := -5008.
Definition E_CRC := -5009.
Definition E_ERASE := -5010.
Definition E_WRITE := -5011.

(* The command packet of sd_cmd_spi, sd_card.c:291-299 *)
Definition packet (cmd arg : Z) : list Z :=
  let p := [Z.lor 64 (Z.land cmd 63); Z.shiftr arg 24 mod 256; Z.shiftr arg 16 mod 256;
            Z.shiftr arg 8 mod 256; arg mod 256] in
  p ++ [Z.lor (Z.shiftl (crc7 p) 1) 1 mod 256].

(* The response loop, sd_card.c:327-333: at most 16 bytes, up to the first with
   bit 7 clear. *)
Fixpoint response_loop (n : nat) (last : Z) : M Z :=
  match n with
  | O => ret last
  | S k =>
      r <~ spi_write 255 ;;
      if Z.land r 128 =? 0 then ret r else response_loop k r
  end.

(* sd_cmd_spi, sd_card.c:286-337 *)
Definition sd_cmd_spi (cmd arg : Z) : M Z :=
  _ <~ send (packet cmd arg) ;;
  _ <~ (if cmd =? 12 then _ <~ spi_write 255 ;; ret tt else ret tt) ;;
  response_loop 16 0.

(* sd_wait_ready, sd_card.c:339-356 *)
Fixpoint wait_loop (fuel : nat) : M bool :=
  match fuel with
  | O => fun _ => NoFuel
  | S k =>
      r <~ spi_write 255 ;;
      if r =? 0 then t <~ time_left ;; (if t then wait_loop k else ret false) else ret true
  end.
Definition sd_wait_ready : M bool := fun s => wait_loop (S (length (inp s))) s.

(* sd_wait_token, sd_card.c:822-835 *)
Fixpoint token_loop (fuel : nat) (token : Z) : M bool :=
  match fuel with
  | O => fun _ => NoFuel
  | S k =>
      r <~ spi_write 255 ;;
      if r =? token then ret true
      else t <~ time_left ;; (if t then token_loop k token else ret false)
  end.
Definition sd_wait_token (token : Z) : M bool := fun s => token_loop (S (length (inp s))) token s.

(* sd_card_detect, sd_card.c:622-641 *)
Definition sd_card_detect : M bool :=
  d <~ read_detect ;;
  if d then _ <~ upd_sd (fun s => set_status s (noinit s) false) ;; ret true
  else _ <~ upd_sd (fun s => set_type (set_status s true true) 0) ;; ret false.

(* The retries of sd_cmd, sd_card.c:464-481 *)
Fixpoint attempts (n : nat) (cmd arg : Z) (is_acmd : bool) (last : Z) : M Z :=
  match n with
  | O => ret last
  | S k =>
      _ <~ (if is_acmd then _ <~ sd_cmd_spi 55 0 ;; sd_wait_ready else ret true) ;;
      r <~ sd_cmd_spi cmd arg ;;
      if r =? 255 then attempts k cmd arg is_acmd r else ret r
  end.

(* The R2 status bits, sd_card.c:545-606, in the order tested. *)
Definition r2_table : list (Z * Z) :=
  [(0, E_WRITE); (1, E_WRITE_PROTECTED); (2, E_WRITE); (3, E_WRITE); (4, E_WRITE); (5, E_WRITE_PROTECTED);
   (6, E_ERASE); (7, E_PARAMETER); (8, E_NONE); (9, E_ERASE); (10, E_UNSUPPORTED); (11, E_CRC); (12, E_ERASE);
   (13, E_PARAMETER); (14, E_PARAMETER)].
Definition r2_status (r status : Z) : Z :=
  fold_left (fun st e => if Z.testbit r (fst e) then snd e else st) r2_table status.

(* The rest of sd_cmd after a response, sd_card.c:505-619: status and *resp. *)
Definition finish_cmd (cmd response : Z) : M (Z * Z) :=
  if Z.testbit response 3 && negb (cmd =? 23) then ret (E_CRC, response)
  else if Z.testbit response 2 then
    _ <~ (if cmd =? 8 then upd_sd (fun s => set_type s 4) else ret tt) ;; ret (E_UNSUPPORTED, response)
  else
    let status :=
      if Z.testbit response 1 || Z.testbit response 4 then E_ERASE
      else if Z.testbit response 5 || Z.testbit response 6 then E_PARAMETER else E_NONE in
    if (cmd =? 8) || (cmd =? 58) then
      _ <~ (if cmd =? 8 then upd_sd (fun s => set_type s 2) else ret tt) ;;
      b3 <~ spi_write 255 ;; b2 <~ spi_write 255 ;; b1 <~ spi_write 255 ;; b0 <~ spi_write 255 ;;
      ret (status, Z.lor (Z.lor (Z.lor (Z.shiftl b3 24) (Z.shiftl b2 16)) (Z.shiftl b1 8)) b0)
    else if (cmd =? 12) || (cmd =? 38) then _ <~ sd_wait_ready ;; ret (status, response)
    else if cmd =? 13 then
      b <~ spi_write 255 ;;
      let r := Z.lor (Z.shiftl response 8) b in ret (r2_status r status, r)
    else ret (status, response).

(* sd_cmd, sd_card.c:448-619.  [reinit] is sd_init_nolock, or None when
   doing_reinit is set.  [fuel] bounds the jumps back to retry. *)
Fixpoint cmd_retry (reinit : option (M unit)) (fuel : nat) (cmd arg : Z) (is_acmd : bool) : M (Z * Z) :=
  match fuel with
  | O => fun _ => NoFuel
  | S k =>
      response <~ attempts 3 cmd arg is_acmd 0 ;;
      if response =? 255 then
        match reinit with
        | None => ret (E_NO_DEVICE, response)
        | Some init =>
            _ <~ upd_sd (fun s => set_status s true true) ;;
            d <~ sd_card_detect ;;
            _ <~ (if d then init else ret tt) ;;
            bad <~ get noinit ;;
            if bad then ret (E_NO_DEVICE, response) else cmd_retry reinit k cmd arg is_acmd
        end
      else finish_cmd cmd response
  end.

Definition sd_cmd_with (reinit : option (M unit)) (cmd arg : Z) (is_acmd : bool) : M (Z * Z) :=
  _ <~ (if cmd =? 12 then ret true else sd_wait_ready) ;;
  fun s => cmd_retry reinit (S (length (inp s))) cmd arg is_acmd s.

(* ext_bits, sd_card.c:690-704, on a 16-byte register; uint32_t result. *)
Fixpoint ext_loop (data : list Z) (lsb : Z) (n : nat) : Z :=
  match n with
  | O => 0
  | S k =>
      let position := lsb + Z.of_nat k in
      let byte := 15 - Z.shiftr position 3 in
      let bit := Z.land position 7 in
      let value := Z.land (Z.shiftr (nth (Z.to_nat byte) data 0) bit) 1 in
      Z.lor (ext_loop data lsb k) (Z.shiftl value (Z.of_nat k))
  end.
Definition ext_bits (data : list Z) (msb lsb : Z) : Z := u32 (ext_loop data lsb (Z.to_nat (1 + msb - lsb))).

(* The register decoding of sd_sectors_nolock, sd_card.c:724-756. *)
Definition csd_sectors (csd : list Z) : Z :=
  let csd_structure := ext_bits csd 127 126 in
  if csd_structure =? 0 then
    let c_size := ext_bits csd 73 62 in
    let c_size_mult := ext_bits csd 49 47 in
    let read_bl_len := ext_bits csd 83 80 in
    let block_len := u32 (Z.shiftl 1 read_bl_len) in
    let mult := u32 (Z.shiftl 1 (c_size_mult + 2)) in
    let blocknr := u32 ((c_size + 1) * mult) in
    let capacity := blocknr * block_len in
    capacity / 512
  else if csd_structure =? 1 then
    let hc_c_size := ext_bits csd 69 48 in
    u32 (Z.shiftl (u32 (hc_c_size + 1)) 10)
  else 0.

(* sd_read_bytes and sd_read_block, sd_card.c:839-905, differ only in how the
   bytes are fetched: code and bytes stored. *)
Definition sd_read_data (n : nat) : M (Z * list Z) :=
  t <~ sd_wait_token 254 ;;
  if negb t then ret (E_NO_RESPONSE, [])
  else
    data <~ receive n ;;
    hi <~ spi_write 255 ;; lo <~ spi_write 255 ;;
    if crc16 data =? Z.lor (Z.shiftl hi 8) lo then ret (0, data) else ret (E_CRC, data).

(* The functions below take sd_cmd as an argument: inside a reinitialization it
   does not start another one. *)
Definition cmd_fun := Z -> Z -> bool -> M (Z * Z).

(* sd_sectors_nolock, sd_card.c:708-757 *)
Definition sd_sectors_nolock (sd_cmd : cmd_fun) : M Z :=
  '(st, _) <~ sd_cmd 9 0 false ;;
  if negb (st =? 0) then ret 0
  else
    '(rc, csd) <~ sd_read_data 16 ;;
    if negb (rc =? 0) then ret 0 else ret (csd_sectors csd).

(* sd_identification_nolock, sd_card.c:771-819 *)
Definition sd_identification_nolock (sd_cmd : cmd_fun) : M unit :=
  _ <~ upd_sd (fun s => set_ids s [0; 0] [0; 0; 0; 0; 0] 0) ;;
  '(st, _) <~ sd_cmd 10 0 false ;;
  if negb (st =? 0) then ret tt
  else
    '(rc, cid) <~ sd_read_data 16 ;;
    if negb (rc =? 0) then ret tt
    else upd_sd (fun s => set_ids s [ext_bits cid 119 112; ext_bits cid 111 104]
           [ext_bits cid 103 96; ext_bits cid 95 88; ext_bits cid 87 80; ext_bits cid 79 72; ext_bits cid 71 64]
           (ext_bits cid 55 24)).

(* sd_go_idle_state, sd_card.c:647-667; releasing and acquiring the bus sends a
   fill byte each. *)
Fixpoint go_idle_loop (sd_cmd : cmd_fun) (n : nat) (last : Z) : M Z :=
  match n with
  | O => ret last
  | S k =>
      '(_, response) <~ sd_cmd 0 0 false ;;
      if response =? 1 then ret response
      else _ <~ spi_write 255 ;; _ <~ spi_write 255 ;; go_idle_loop sd_cmd k response
  end.
Definition sd_go_idle_state (sd_cmd : cmd_fun) : M Z := go_idle_loop sd_cmd 4 0.

(* sd_cmd8, sd_card.c:671-688 *)
Definition sd_cmd8 (sd_cmd : cmd_fun) : M Z :=
  '(status, response) <~ sd_cmd 8 426 false ;;
  ty <~ get card_type ;;
  if (status =? 0) && (ty =? 2) && negb (Z.land response 4095 =? 426) then
    _ <~ upd_sd (fun s => set_type s 4) ;; ret E_UNUSABLE
  else ret status.

(* sd_spi_send_initializing_sequence, sd_spi.c:121-134 *)
Fixpoint init_sequence (fuel : nat) : M unit :=
  match fuel with
  | O => fun _ => NoFuel
  | S k => _ <~ receive 10 ;; t <~ time_left ;; if t then init_sequence k else ret tt
  end.

(* The ACMD41 loop, sd_card.c:1152-1156 *)
Fixpoint acmd41_loop (sd_cmd : cmd_fun) (fuel : nat) (arg : Z) : M (Z * Z) :=
  match fuel with
  | O => fun _ => NoFuel
  | S k =>
      '(status, response) <~ sd_cmd 41 arg true ;;
      if Z.testbit response 0 then
        t <~ time_left ;; if t then acmd41_loop sd_cmd k arg else ret (status, response)
      else ret (status, response)
  end.

(* sd_init_medium, sd_card.c:1089-1191 *)
Definition sd_init_medium (sd_cmd : cmd_fun) : M Z :=
  _ <~ (fun s => init_sequence (S (length (clk s))) s) ;;
  idle <~ sd_go_idle_state sd_cmd ;;
  if negb (idle =? 1) then ret E_NO_DEVICE
  else
    status <~ sd_cmd8 sd_cmd ;;
    if negb (status =? 0) && negb (status =? E_UNSUPPORTED) then ret status
    else
      _ <~ sd_cmd 59 1 false ;;
      '(status, response) <~ sd_cmd 58 0 false ;;
      if negb (status =? 0) then ret status
      else if negb (Z.testbit response 20) then _ <~ upd_sd (fun s => set_type s 4) ;; ret E_UNUSABLE
      else
        ty <~ get card_type ;;
        let arg := if ty =? 2 then 1073741824 else 0 in
        '(status, response) <~ (fun s => acmd41_loop sd_cmd (S (length (clk s))) arg s) ;;
        if negb (status =? 0) || negb (response =? 0) then _ <~ upd_sd (fun s => set_type s 4) ;; ret status
        else
          ty <~ get card_type ;;
          if ty =? 2 then
            '(status, response) <~ sd_cmd 58 0 false ;;
            _ <~ (if (status =? 0) && Z.testbit response 30 then upd_sd (fun s => set_type s 3) else ret tt) ;;
            ret status
          else _ <~ upd_sd (fun s => set_type s 1) ;; ret status.

(* sd_init_nolock, sd_card.c:1212-1239 *)
Definition sd_init_nolock (sd_cmd : cmd_fun) : M unit :=
  _ <~ upd_sd (fun s => set_type s 0) ;;
  err <~ sd_init_medium sd_cmd ;;
  if negb (err =? 0) then ret tt
  else
    n <~ sd_sectors_nolock sd_cmd ;;
    _ <~ upd_sd (fun s => set_sectors s n) ;;
    if n =? 0 then ret tt
    else
      _ <~ sd_identification_nolock sd_cmd ;;
      '(st, _) <~ sd_cmd 16 512 false ;;
      if negb (st =? 0) then ret tt
      else upd_sd (fun s => set_status s false (nodisk s)).

(* sd_cmd with doing_reinit set, and without. *)
Definition sd_cmd_nested : cmd_fun := sd_cmd_with None.
Definition sd_cmd : cmd_fun := sd_cmd_with (Some (sd_init_nolock sd_cmd_nested)).

(* sd_init, sd_card.c:1241-1265 *)
Definition sd_init : M unit :=
  _ <~ sd_card_detect ;;
  gone <~ get nodisk ;;
  bad <~ get noinit ;;
  if gone || negb bad then ret tt
  else _ <~ spi_write 255 ;; _ <~ sd_init_nolock sd_cmd ;; _ <~ spi_write 255 ;; ret tt.

Fixpoint read_loop (n : nat) : M (Z * list Z) :=
  match n with
  | O => ret (0, [])
  | S k =>
      '(rc, d) <~ sd_read_data 512 ;;
      if negb (rc =? 0) then ret (E_NO_RESPONSE, d)
      else '(rc', r) <~ read_loop k ;; ret (rc', d ++ r)
  end.

(* The address sent to the card, sd_card.c:919-926 and 1024-1031; sd_cmd takes a
   uint32_t. *)
Definition sd_address (s : sd) (sector : Z) : Z :=
  u32 (if card_type s =? 3 then sector else sector * 512).

(* in_sd_read_blocks, sd_card.c:907-951: the code and the bytes stored. *)
Definition in_sd_read_blocks (sector count : Z) : M (Z * list Z) :=
  s0 <~ get (fun s => s) ;;
  if (sectors s0 <? sector + count) || noinit s0 || nodisk s0 then ret (E_PARAMETER, [])
  else
    '(status, _) <~ sd_cmd (if 1 <? count then 18 else 17) (sd_address s0 sector) false ;;
    if negb (status =? 0) then ret (status, [])
    else
      '(rd, data) <~ read_loop (Z.to_nat count) ;;
      status' <~ (if 1 <? count then '(st, _) <~ sd_cmd 12 0 false ;; ret st else ret status) ;;
      ret (if rd =? 0 then status' else rd, data).

(* sd_write_block, sd_card.c:962-991: the masked data response. *)
Definition sd_write_block (d : list Z) (token : Z) : M Z :=
  _ <~ spi_write token ;;
  _ <~ send d ;;
  _ <~ send [Z.shiftr (crc16 d) 8 mod 256; crc16 d mod 256] ;;
  r <~ spi_write 255 ;;
  _ <~ sd_wait_ready ;;
  ret (Z.land r 31).

(* The do-while of in_sd_write_blocks, sd_card.c:1058-1067: blockCnt is a
   uint32_t decremented after each block. *)
Fixpoint write_loop (fuel : nat) (buf : list Z) (cnt : Z) : M unit :=
  match fuel with
  | O => fun _ => NoFuel
  | S k =>
      if (length buf <? 512)%nat then fun _ => Ub
      else
        r <~ sd_write_block (firstn 512 buf) 252 ;;
        if negb (r =? 5) then ret tt
        else if u32 (cnt - 1) =? 0 then ret tt
        else write_loop k (skipn 512 buf) (u32 (cnt - 1))
  end.

(* in_sd_write_blocks, sd_card.c:1010-1078.  The value E_WRITE given to status
   for a rejected block is overwritten before it is returned. *)
Definition in_sd_write_blocks (buf : list Z) (sector count : Z) : M Z :=
  s0 <~ get (fun s => s) ;;
  if (sectors s0 <? sector + count) || noinit s0 || nodisk s0 then ret E_PARAMETER
  else
    let addr := sd_address s0 sector in
    early <~ (if count =? 1 then
                '(status, _) <~ sd_cmd 24 addr false ;;
                if negb (status =? 0) then ret (Some status)
                else if (length buf <? 512)%nat then fun _ => Ub
                else _ <~ sd_write_block (firstn 512 buf) 254 ;; ret None
              else
                _ <~ sd_cmd 23 count true ;;
                _ <~ spi_write 255 ;; _ <~ spi_write 255 ;;
                '(status, _) <~ sd_cmd 25 addr false ;;
                if negb (status =? 0) then ret (Some status)
                else
                  _ <~ (fun s => write_loop (S (length (inp s))) buf count s) ;;
                  _ <~ spi_write 253 ;; ret None) ;;
    match early with
    | Some status => ret status
    | None =>
        _ <~ spi_write 255 ;; _ <~ spi_write 255 ;;
        '(status, _) <~ sd_cmd 13 0 false ;;
        ret status
    end.

(* sdrc2dresult, pico/diskio.c:219-245 *)
Definition sdrc2dresult (rc : Z) : drc :=
  if rc =? E_NONE then DISK_OK
  else if (rc =? E_UNUSABLE) || (rc =? E_NO_RESPONSE) || (rc =? -5004) || (rc =? E_NO_DEVICE) then DISK_NOTRDY
  else if (rc =? E_PARAMETER) || (rc =? E_UNSUPPORTED) then DISK_PARERR
  else if rc =? E_WRITE_PROTECTED then DISK_WRPRT
  else DISK_ERROR.

(* disk_read and disk_write, pico/diskio.c:251-298, for a configured SD card:
   acquiring and releasing the bus sends a fill byte each. *)
Definition sd_disk_read (sector count : Z) : M (drc * list Z) :=
  _ <~ spi_write 255 ;;
  '(rc, data) <~ in_sd_read_blocks sector count ;;
  _ <~ spi_write 255 ;;
  ret (sdrc2dresult rc, data).

Definition sd_disk_write (buf : list Z) (sector count : Z) : M drc :=
  _ <~ spi_write 255 ;;
  rc <~ in_sd_write_blocks buf sector count ;;
  _ <~ spi_write 255 ;;
  ret (sdrc2dresult rc).
