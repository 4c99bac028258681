(* The place where pico/flash.c looks for the filesystem. *)
From Verif Require Import Base BaseLemmas DiskModel DiskProof Uf2Model Uf2Spec.
Open Scope Z_scope.

(* UF2 files of the Pico are made of pages of 256 bytes. *)
Definition pages (size : Z) : Z := 256 * ((size + 255) / 256).
Lemma kernel_base m mf dev size : 0 <= size < 4294901760 -> base (flash_probe m mf dev size) = 65536 * ((size + 65535) / 65536).
Proof. intros S. unfold flash_probe. cbn [base]. unfold u32. rewrite Z.mod_small by lia. rewrite align64k by lia. apply Z.mul_comm. Qed.
Lemma agree m mf dev size lo : 0 < size < 4294901760 -> (65536 | lo) -> pages size mod 65536 <> 0 -> base_of (lo + pages size) = lo + base (flash_probe m mf dev size).
Proof. intros S [q ->] N. rewrite kernel_base by lia. unfold base_of, pages in *. 
  set (p := (size + 255) / 256) in *. assert (P : 256 * p - 255 <= size <= 256 * p) by (unfold p; Z.to_euclidean_division_equations; lia). clearbody p.
  replace (q * 65536 + 256 * p) with (256 * p + q * 65536) by lia. rewrite Z.div_add by lia. assert ((size + 65535) / 65536 = 256 * p / 65536 + 1); [|lia]. Z.to_euclidean_division_equations; lia.
Qed.
Lemma disagree m mf dev size lo : 0 < size < 4294901760 -> (65536 | lo) -> pages size mod 65536 = 0 -> base_of (lo + pages size) = lo + base (flash_probe m mf dev size) + 65536.
Proof. intros S [q ->] N. rewrite kernel_base by lia. unfold base_of, pages in *. 
  set (p := (size + 255) / 256) in *. assert (P : 256 * p - 255 <= size <= 256 * p) by (unfold p; Z.to_euclidean_division_equations; lia). clearbody p.
  replace (q * 65536 + 256 * p) with (256 * p + q * 65536) by lia. rewrite Z.div_add by lia. assert ((size + 65535) / 65536 = 256 * p / 65536); [|lia]. Z.to_euclidean_division_equations; lia.
Qed.

(* No program at all. *)
Lemma no_program image : exists fs, format false [] 2097152 image = Some (flat_map (fun p => write_sector (uns (65536 + uns (fst p * SECTOR))) 0 (snd p)) fs).
Proof.
  exists (image 2031615). unfold format. cbn [get_location kept]. change (Z.land (uns (0 + 65536)) 4294901760) with 65536.
  change ((4294967295 + 2097152) mod 18446744073709551616 <? uns (65536 + 5 * SECTOR)) with false. change (uns (4294967295 + 2097152 - 65536)) with 2031615. reflexivity.
Qed.
