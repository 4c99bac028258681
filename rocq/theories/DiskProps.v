(* C43: disk sectors hold what was last written to them. *)
From Verif Require Import Base DiskModel DiskSpec DiskProof.
Open Scope Z_scope.

(* The disk images of the unix port: every history of requests gets the answers
   of an ideal disk, and the images hold its contents afterwards. *)
Theorem C43_unix : forall rs d f, unix_ok d -> unix_holds d f -> Forall (addressable unix_geo) rs ->
  exists d' os, run unix_step d rs = Ok (d', os) /\ answers unix_geo f rs os /\
    unix_ok d' /\ unix_holds d' (fold_left (after unix_geo) rs f).
Proof. exact unix_run_ok. Qed.
Print Assumptions C43_unix.
Theorem C43_unix_ioctl : forall u, 0 <= u < 2 ->
  unix_ioctl u 1 = (DISK_OK, Some (gcount unix_geo u)) /\ unix_ioctl u 2 = (DISK_OK, Some (gsize unix_geo u)).
Proof. exact unix_ioctl_ok. Qed.
Print Assumptions C43_unix_ioctl.

(* Flash memory: the same, and the program image is never changed. *)
Theorem C43_flash : forall f h rs, flash_ok f -> flash_holds f h -> Forall drive0 rs ->
  Forall (addressable (flash_geo (flash_block_count f))) rs ->
  exists f' os, run flash_step f rs = Ok (f', os) /\
    answers (flash_geo (flash_block_count f)) h rs os /\ flash_ok f' /\
    base f' = base f /\ flash_block_count f' = flash_block_count f /\
    flash_holds f' (fold_left (after (flash_geo (flash_block_count f))) rs h) /\
    firstn (Z.to_nat (base f)) (mem f') = firstn (Z.to_nat (base f)) (mem f).
Proof. exact flash_history. Qed.
Print Assumptions C43_flash.
(* The disk area begins behind the program and fills the chip. *)
Theorem C43_flash_area : forall f, flash_ok f -> exists mf dev bin, f = flash_probe (mem f) mf dev bin /\
  bin <= base f < bin + 65536 /\ base f mod 65536 = 0 /\
  base f + flash_block_count f * 4096 = Z.of_nat (length (mem f)).
Proof. exact flash_place. Qed.
Print Assumptions C43_flash_area.

Theorem C43_flash_ioctl : forall f,
  flash_ioctl f 1 = (if gcount (flash_geo (flash_block_count f)) 0 =? 0 then DISK_ERROR else DISK_OK, Some (gcount (flash_geo (flash_block_count f)) 0)) /\
  flash_ioctl f 2 = (DISK_OK, Some (gsize (flash_geo (flash_block_count f)) 0)).
Proof. exact flash_ioctl_ok. Qed.
Print Assumptions C43_flash_ioctl.

(* Without the restriction to byte ranges below 2^32: a sector far outside the
   disk is accepted and sector 0 is overwritten. *)
Theorem C43_unix_range_refuted : exists d data d', unix_ok d /\ Z.of_nat (length data) = 4096 /\
  gcount unix_geo 0 <= 1048576 /\
  unix_write d 0 data 1048576 1 = Ok (d', DISK_OK) /\
  slice (img d' 0) 0 4096 <> slice (img d 0) 0 4096.
Proof. exact unix_alias_lost. Qed.
Print Assumptions C43_unix_range_refuted.
(* On flash the program image itself can be overwritten. *)
Theorem C43_flash_program_refuted : exists f data f', flash_ok f /\ Z.of_nat (length data) = 8192 /\
  flash_write f data 1048575 2 = Ok (f', DISK_OK) /\
  firstn (Z.to_nat (base f)) (mem f') <> firstn (Z.to_nat (base f)) (mem f).
Proof. exact flash_harm. Qed.
Print Assumptions C43_flash_program_refuted.

Example C43_example_unix : (exists d, unix_ok d /\ unix_holds d (fun _ _ _ => 0)) /\ Forall (addressable unix_geo) demo.
Proof. exact (conj zero_disks demo_addressable). Qed.
Example C43_example_flash : (exists f, flash_ok f /\ flash_holds f (fun _ _ _ => 0) /\ flash_block_count f = 496) /\
  Forall drive0 demo0 /\ Forall (addressable (flash_geo 496)) demo0.
Proof. exact (conj demo_flash demo0_ok). Qed.
