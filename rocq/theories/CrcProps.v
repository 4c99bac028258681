(* C30, C31: checksums. *)
From Verif Require Import Base CrcModel CrcSpec CrcProof CrcProof2.
Open Scope Z_scope.

(* A value in the stated range is determined by its bits. *)
Theorem C30_crc16_rz : forall data, Forall byte data ->
  msb_bits 16 (zm_calc_data_crc data) = remainder g16 (zeros 16) (msb_first data) /\ 0 <= zm_calc_data_crc data < 65536.
Proof. exact crc16_rz. Qed.
Print Assumptions C30_crc16_rz.

Theorem C30_crc32_rz : forall data, Forall byte data ->
  lsb_bits 32 (zm_calc_data_crc32 data) = map negb (remainder g32 (ones 32) (lsb_first data)) /\
  0 <= zm_calc_data_crc32 data < 4294967296.
Proof. exact crc32_rz. Qed.
Print Assumptions C30_crc32_rz.

Theorem C30_crc16_sd : forall data, Forall byte data ->
  msb_bits 16 (crc16 data) = remainder g16 (zeros 16) (msb_first data) /\ 0 <= crc16 data < 65536.
Proof. exact crc16_sd. Qed.
Print Assumptions C30_crc16_sd.

Theorem C30_crc7_sd : forall data, Forall byte data ->
  msb_bits 7 (crc7 data) = remainder g7 (zeros 7) (msb_first data) /\ 0 <= crc7 data < 128.
Proof. exact crc7_sd. Qed.
Print Assumptions C30_crc7_sd.

(* The usual check values for "123456789"; CMD0 of the SD protocol (0x4a = 0x95 / 2). *)
Example C30_example :
  let d := [49; 50; 51; 52; 53; 54; 55; 56; 57] in
  Forall byte d /\ zm_calc_data_crc d = 12739 /\ zm_calc_data_crc32 d = 3421780262 /\ crc16 d = 12739 /\
  crc7 [64; 0; 0; 0; 0] = 74.
Proof. cbv zeta. split; [repeat constructor; discriminate|]. repeat split; vm_compute; reflexivity. Qed.

Theorem C31_crc16_burst_or_odd : forall data data' f, (f = zm_calc_data_crc \/ f = crc16) -> Forall byte data -> Forall byte data' ->
  (burst 16 (msb_first data) (msb_first data') \/
   (length data = length data' /\ Nat.odd (flips (msb_first data) (msb_first data')) = true)) -> f data <> f data'.
Proof. exact detect16. Qed.
Print Assumptions C31_crc16_burst_or_odd.

Theorem C31_crc32_burst : forall data data', Forall byte data -> Forall byte data' ->
  burst 32 (lsb_first data) (lsb_first data') -> zm_calc_data_crc32 data <> zm_calc_data_crc32 data'.
Proof. exact detect32. Qed.
Print Assumptions C31_crc32_burst.

Theorem C31_crc7_burst : forall data data', Forall byte data -> Forall byte data' ->
  burst 7 (msb_first data) (msb_first data') -> crc7 data <> crc7 data'.
Proof. exact detect7. Qed.
Print Assumptions C31_crc7_burst.

(* Two flipped bits less than 4095 bytes apart; for CRC-32, 16 Kbytes. *)
Theorem C31_crc16_two_bits : forall data data' f, (f = zm_calc_data_crc \/ f = crc16) -> Forall byte data -> Forall byte data' ->
  two_flips 32766 (msb_first data) (msb_first data') -> f data <> f data'.
Proof. exact detect16_two. Qed.
Print Assumptions C31_crc16_two_bits.

Theorem C31_crc32_two_bits : forall data data', Forall byte data -> Forall byte data' ->
  two_flips 131072 (lsb_first data) (lsb_first data') -> zm_calc_data_crc32 data <> zm_calc_data_crc32 data'.
Proof. exact detect32_two. Qed.
Print Assumptions C31_crc32_two_bits.

(* A burst across a byte boundary. *)
Example C31_example : burst 16 (msb_first [1; 2; 3]) (msb_first [1; 9; 131]) /\ flips (msb_first [1; 2; 3]) (msb_first [1; 3; 3]) = 1%nat /\
  two_flips 32766 (msb_first [1; 2; 3]) (msb_first [129; 2; 2]).
Proof.
  split; [|split; [reflexivity|]].
  - exists (msb_bits 8 1 ++ [false; false; false; false]), [false; false; true; false; false], [true; false; false; true; true], [false; false; false; false; false; true; true].
    repeat split; try reflexivity; try discriminate; cbn; lia.
  - exists [], false, (skipn 1 (msb_first [1; 2]) ++ firstn 7 (msb_bits 8 3)), true, []. repeat split; try reflexivity. cbn. lia.
Qed.
