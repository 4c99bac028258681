(* C120: the serial number of a volume. *)
From Verif Require Import Base FatModel FatSpec MkfsModel MountModel MkfsSpec MkfsExample SerialModel SerialProof.
Open Scope Z_scope.

(* The serial number f_getlabel gives after f_mkfs is the size of the volume plus the time
   of formatting. *)
Theorem C120_serial : forall fuel D d fmt buf len t d', usable D -> bytes d -> (forall o, vbyte (buf o)) -> 0 <= len -> (4 <= fuel)%nat ->
  d_blk D <= 16 -> f_mkfs fuel D d fmt buf len t = Ok (MK_OK, d') -> forall w, exists m v,
  mount D d' w = Mounted m /\ get_serial m = (v, FR_OK, (d_size D - volbase (m_geo m) + t) mod 4294967296) /\ disk v = d'.
Proof. exact serial_ok. Qed.
Print Assumptions C120_serial.
Example C120_formatted : usable flash /\ bytes erased /\ (forall o, vbyte (any_buf o)) /\ d_blk flash <= 16 /\
  (exists d', f_mkfs 4 flash erased 9 any_buf 4096 12345 = Ok (MK_OK, d')) /\ d_size flash = 480 /\ start flash 9 = 0.
Proof. exact (conj flash_usable (conj erased_bytes (conj any_bytes (conj flash_blk (conj flash_done (conj eq_refl eq_refl)))))). Qed.
