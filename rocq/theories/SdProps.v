(* C44: SD card fields are extracted from the right bits and capacity is exact.
   C45: a rejected SD write is reported. *)
From Verif Require Import Base CrcModel CrcSpec DiskModel SdModel SdSpec SdProof SdProof2 SdProof3.
Open Scope Z_scope.

Theorem C44_fields : forall data msb lsb, reg16 data -> 0 <= lsb <= msb -> msb <= 127 -> msb - lsb < 32 ->
  ext_bits data msb lsb = field (register data) msb lsb.
Proof. exact ext_bits_ok. Qed.
Print Assumptions C44_fields.

Theorem C44_capacity : forall csd, reg16 csd ->
  ~ (field (register csd) 127 126 = 1 /\ field (register csd) 69 48 = 4194303) ->
  csd_sectors csd = capacity_sectors (register csd).
Proof. exact csd_sectors_ok. Qed.
Print Assumptions C44_capacity.
(* The excluded register value describes a card of 2 TB, the largest SDXC size:
   it counts 2^32 sectors, and the driver computes none. *)
Theorem C44_capacity_refuted : exists csd, reg16 csd /\
  capacity_sectors (register csd) = 4294967296 /\ csd_sectors csd = 0.
Proof. exact two_tb. Qed.
Print Assumptions C44_capacity_refuted.
Theorem C44_capacity_2tb : forall csd, reg16 csd -> field (register csd) 127 126 = 1 ->
  field (register csd) 69 48 = 4194303 -> csd_sectors csd = 0.
Proof. exact csd_sectors_2tb. Qed.
Print Assumptions C44_capacity_2tb.

(* Whatever the card answers, what the driver knows of it is a register that was
   asked for and arrived with its checksum; initialization, also the one hidden in
   a read or write, establishes and keeps this. *)
Theorem C44_init : forall s s' u, Forall byte (inp s) -> known s -> sd_init s = Ok (u, s') -> known s'.
Proof. exact known_init. Qed.
Print Assumptions C44_init.
Theorem C44_read : forall sector count s s' r, Forall byte (inp s) -> known s ->
  sd_disk_read sector count s = Ok (r, s') -> known s'.
Proof. exact known_read. Qed.
Print Assumptions C44_read.
Theorem C44_write : forall buf sector count s s' r, Forall byte (inp s) -> known s ->
  sd_disk_write buf sector count s = Ok (r, s') -> known s'.
Proof. exact known_write. Qed.
Print Assumptions C44_write.

Example C44_example_registers : csd_sectors csd_8g = 15523840 /\ csd_sectors csd_1g = 1984000.
Proof. split; reflexivity. Qed.
Example C44_example_init : exists s, sd_init (cold init_script) = Ok (tt, s) /\ sectors s = 15523840 /\
  noinit s = false /\ card_type s = 3 /\ oem_id s = [83; 68] /\ product_name s = [83; 85; 48; 56; 71] /\ serial s = 305419896.
Proof.
  destruct (sd_init (cold init_script)) as [[[] s]| |] eqn:E; [|vm_compute in E; discriminate|vm_compute in E; discriminate].
  exists s. vm_compute in E. inversion E; subst s. clear E. split; [reflexivity|]. split; [reflexivity|].
  split; [reflexivity|]. split; [reflexivity|]. split; [reflexivity|]. split; reflexivity.
Qed.

(* Data reported as read was asked for with the sector's address and arrived
   block by block with good checksums. *)
Theorem C45_read : forall sector count s data s', Forall byte (inp s) -> 0 <= sector -> 0 <= count ->
  sd_disk_read sector count s = Ok ((DISK_OK, data), s') ->
  sector + count <= sectors s /\ noinit s = false /\ nodisk s = false /\
  exists a b c ex e ds, log s' = log s ++ a ++ b ++ c ++ ex ++ e /\
    map fst b = frame (if 1 <? count then 18 else 17) (card_address s sector) /\ (length c <= 16)%nat /\
    carries 512 (map snd ex) ds /\ data = concat ds /\ Z.of_nat (length ds) = count.
Proof. exact disk_read_ok. Qed.
Print Assumptions C45_read.

(* What a successful write means: the blocks were sent from the first on, with the
   right address, and all were accepted except possibly the last one sent; if that
   one was accepted too, all blocks were sent. *)
Theorem C45_write : forall buf sector count s s', Forall byte buf -> 0 <= sector -> 0 < count < 4294967296 ->
  Z.of_nat (length buf) = 512 * count ->
  sd_disk_write buf sector count s = Ok (DISK_OK, s') ->
  sector + count <= sectors s /\ noinit s = false /\ nodisk s = false /\
  exists a b c ex e ds vs v, log s' = log s ++ a ++ b ++ c ++ ex ++ e /\
    map fst b = frame (if count =? 1 then 24 else 25) (card_address s sector) /\ (length c <= 16)%nat /\
    sends (if count =? 1 then 254 else 252) ex ds (vs ++ [v]) /\ Forall (fun x => x = true) vs /\
    ds = firstn (length ds) (blocks_of (Z.to_nat count) buf) /\ (v = false \/ Z.of_nat (length ds) = count).
Proof. exact disk_write_ok. Qed.
Print Assumptions C45_write.

(* That the last one was accepted does not follow: the code for a rejected block
   is overwritten by the result of the status command. *)
Theorem C45_single_refuted : exists buf s s' a ex b, Forall byte buf /\ length buf = 512%nat /\
  sd_disk_write buf 5 1 s = Ok (DISK_OK, s') /\ log s' = a ++ ex ++ b /\ log s = [] /\ sends 254 ex [buf] [false].
Proof. exact rejected_single. Qed.
Print Assumptions C45_single_refuted.
(* Two blocks, the second (filled with 9) never sent. *)
Theorem C45_multi_refuted : exists s', sd_disk_write two_blocks 5 2 (ready script2 3 100) = Ok (DISK_OK, s') /\
  inp s' = [] /\ ~ In 9 (map fst (log s')).
Proof. exact rejected_multi. Qed.
Print Assumptions C45_multi_refuted.
(* The status command reports success whatever error bits its second byte has, if
   the idle bit is set. *)
Theorem C45_idle_refuted : forall r i s, byte r -> inp s = r :: i -> exists s', finish_cmd 13 1 s = Ok (0, 256 + r, s').
Proof. exact idle_hides. Qed.
Print Assumptions C45_idle_refuted.
(* Writing no blocks one past the end sends a block from outside the buffer. *)
Theorem C45_count_refuted : sd_disk_write [] 100 0 (ready script0 3 100) = Ub.
Proof. exact zero_count. Qed.
Print Assumptions C45_count_refuted.

Example C45_example : exists s1 s2 s3, sd_init (cold (init_script ++ read_script ++ write_script)) = Ok (tt, s1) /\
  sd_disk_read 100 2 s1 = Ok (DISK_OK, sector_7 ++ repeat 8 512, s2) /\
  sd_disk_write sector_7 100 1 s2 = Ok (DISK_OK, s3) /\ inp s3 = [].
Proof.
  destruct (sd_init (cold (init_script ++ read_script ++ write_script))) as [[[] s1]| |] eqn:E1;
    [|vm_compute in E1; discriminate|vm_compute in E1; discriminate].
  vm_compute in E1. inversion E1; subst s1. clear E1. eexists. eexists. eexists.
  split; [reflexivity|]. split; [vm_compute; reflexivity|]. split; [vm_compute; reflexivity|reflexivity].
Qed.
