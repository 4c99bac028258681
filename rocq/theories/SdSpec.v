(* SD card registers as numbers, and what a conversation on the bus carried. *)
From Verif Require Import Base CrcModel CrcSpec DiskModel SdModel.
Open Scope Z_scope.

(* The 128-bit register, first byte most significant. *)
Definition register (bytes : list Z) : Z := fold_left (fun a b => a * 256 + b) bytes 0.

(* Bits hi..lo of a number. *)
Definition field (r hi lo : Z) : Z := (r / 2 ^ lo) mod 2 ^ (hi - lo + 1).

Definition reg16 (l : list Z) : Prop := length l = 16%nat /\ Forall byte l.

(* Number of 512-byte sectors, SD Physical Layer Specification 5.3.2
   (CSD version 1.0: BLOCKNR * BLOCK_LEN bytes) and 5.3.3 (version 2.0:
   (C_SIZE + 1) * 512 Kbytes). *)
Definition capacity_sectors (csd : Z) : Z :=
  if field csd 127 126 =? 0 then
    ((field csd 73 62 + 1) * 2 ^ (field csd 49 47 + 2) * 2 ^ field csd 83 80) / 512
  else if field csd 127 126 =? 1 then (field csd 69 48 + 1) * 1024
  else 0.

(* The command frame of the SPI protocol: start bits 01, index, argument, CRC7,
   end bit 1. *)
Definition frame (cmd arg : Z) : list Z :=
  let p := [64 + cmd; arg / 16777216 mod 256; arg / 65536 mod 256; arg / 256 mod 256; arg mod 256] in
  p ++ [2 * crc7 p + 1].

(* Received bytes that deliver data blocks of n bytes: each announced by the
   first 0xfe and followed by its CRC16. *)
Inductive carries (n : nat) : list Z -> list (list Z) -> Prop :=
| carries_end : forall rest, carries n rest []
| carries_block : forall w d hi lo rest ds,
    ~ In 254 w -> length d = n -> crc16 d = hi * 256 + lo -> carries n rest ds ->
    carries n (w ++ [254] ++ d ++ [hi; lo] ++ rest) (d :: ds).

(* Bytes exchanged when data blocks are sent, each with the card's verdict:
   token, data, CRC16, the data response, and the busy wait. *)
Inductive sends (token : Z) : list (Z * Z) -> list (list Z) -> list bool -> Prop :=
| sends_end : sends token [] [] []
| sends_block : forall e d r wait rest ds vs,
    map fst e = [token] ++ d ++ [crc16 d / 256; crc16 d mod 256] ->
    Forall (fun x => fst x = 255) wait -> sends token rest ds vs ->
    sends token (e ++ [(255, r)] ++ wait ++ rest) (d :: ds) ((r mod 32 =? 5) :: vs).

(* The blocks of a buffer. *)
Fixpoint blocks_of (n : nat) (buf : list Z) : list (list Z) :=
  match n with
  | O => []
  | S k => firstn 512 buf :: blocks_of k (skipn 512 buf)
  end.

(* The address put into a read or write command: sector numbers for high
   capacity cards, bytes otherwise. *)
Definition card_address (s : sd) (sector : Z) : Z :=
  (if card_type s =? 3 then sector else 512 * sector) mod 4294967296.

(* In the bytes exchanged there is a command frame, an answer of at most 16
   bytes, and then a 16-byte register delivered with its CRC16. *)
Definition answered (l : list (Z * Z)) (cmd : Z) (reg : list Z) : Prop :=
  reg16 reg /\ exists p b c ex q, l = p ++ b ++ c ++ ex ++ q /\
    map fst b = frame cmd 0 /\ (length c <= 16)%nat /\ carries 16 (map snd ex) [reg].

(* What the driver keeps about the card: no sectors, or those of a received CSD
   register; no identification, or that of a received CID register. *)
Definition known (s : sd) : Prop :=
  (sectors s = 0 \/ exists csd, answered (log s) 9 csd /\ sectors s = csd_sectors csd) /\
  ((oem_id s = [0; 0] /\ product_name s = [0; 0; 0; 0; 0] /\ serial s = 0) \/
   exists cid, answered (log s) 10 cid /\ oem_id s = firstn 2 (skipn 1 cid) /\ product_name s = firstn 5 (skipn 3 cid) /\
     serial s = register (firstn 4 (skipn 9 cid))).
