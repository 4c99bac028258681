(* Filesystem images in UF2 files. *)
From Verif Require Import Base DiskModel Uf2Model Uf2Spec Uf2Proof Uf2Proof2.
Open Scope Z_scope.

(* The filesystem starts at the first 64-kbyte boundary behind the program; loading the
   file gives the program, unchanged, and the sectors at their places, inside the flash. *)
Theorem C54_format : forall pl bs rest fb image lo hi, program bs -> extent bs lo hi -> 0 <= fb -> lo + fb <= 4294836224 -> base_of hi + 20480 <= lo + fb ->
  let n := lo + fb - base_of hi in image_ok (image n) 0 (n / 4096) ->
  exists fs, format pl (bs ++ rest) fb image = Some (bs ++ fs) /\ Forall (fs_block (family bs)) fs /\
    (forall i b, nth_error fs i = Some b -> bno b = Z.of_nat i mod 16 /\ exists s d, nth_error (image n) (Nat.div i 16) = Some (s, d) /\ addr b = base_of hi + 4096 * s + 256 * bno b) /\
    (forall s d k, In (s, d) (image n) -> 0 <= k < 4096 -> base_of hi + 4096 * s + k < lo + fb /\ flashed (bs ++ fs) (base_of hi + 4096 * s + k) = Some (d k)) /\
    (forall x, (forall s d, In (s, d) (image n) -> ~ base_of hi + 4096 * s <= x < base_of hi + 4096 * s + 4096) -> flashed (bs ++ fs) x = flashed bs x) /\
    (forall x, flashed bs x <> None -> lo <= x < hi) /\ hi < base_of hi <= hi + 65536.
Proof. exact format_ok. Qed.
Print Assumptions C54_format.
(* It is refused if fewer than 5 sectors are left. *)
Theorem C54_small : forall pl bs rest fb image lo hi, program bs -> extent bs lo hi -> 0 <= fb -> lo + fb <= 4294836224 -> lo + fb < base_of hi + 20480 -> format pl (bs ++ rest) fb image = None.
Proof. exact format_small. Qed.
Print Assumptions C54_small.
(* What follows the program in the file, such as an older filesystem, is replaced. *)
Theorem C54_again : forall pl pl' bs r1 r2 fb image lo hi, program bs -> extent bs lo hi -> 0 <= fb -> lo + fb <= 4294836224 -> format pl (bs ++ r1) fb image = format pl' (bs ++ r2) fb image.
Proof. exact format_again. Qed.
Print Assumptions C54_again.
(* The kernel looks for the filesystem at the same place, *)
Theorem C54_kernel : forall m mf dev size lo, 0 < size < 4294901760 -> (65536 | lo) -> pages size mod 65536 <> 0 -> base_of (lo + pages size) = lo + base (flash_probe m mf dev size).
Proof. exact agree. Qed.
Print Assumptions C54_kernel.
(* unless the pages of the program fill whole 64 kbytes: then it is 64 kbytes off. *)
Theorem C54_kernel_refuted : forall m mf dev size lo, 0 < size < 4294901760 -> (65536 | lo) -> pages size mod 65536 = 0 -> base_of (lo + pages size) = lo + base (flash_probe m mf dev size) + 65536.
Proof. exact disagree. Qed.
Print Assumptions C54_kernel_refuted.
(* A file without a program is not refused. *)
Theorem C54_empty_refuted : forall image, exists fs, format false [] 2097152 image = Some (flat_map (fun p => write_sector (uns (65536 + uns (fst p * SECTOR))) 0 (snd p)) fs).
Proof. exact no_program. Qed.
Print Assumptions C54_empty_refuted.

(* Two pages of a program of the RP2040 and a comment between them. *)
Definition page (k : Z) : block := mkBlock MAGIC0 MAGIC1 FAMILY (0x10000000 + 256 * k) 256 k 2 0xe48bff56 (fun o => o + k) MAGICE.
Definition two : list block := [page 0; mkBlock 0 0 1 0 0 7 8 0 (fun _ => 0) 0; page 1].
Example C54_two : program two /\ extent two 0x10000000 0x10000200 /\ family two = 0xe48bff56.
Proof.
  assert (F0 : flash_block (page 0)) by (repeat split; vm_compute; try reflexivity; discriminate). assert (F1 : flash_block (page 1)) by (repeat split; vm_compute; try reflexivity; discriminate).
  assert (C : comment (mkBlock 0 0 1 0 0 7 8 0 (fun _ => 0) 0)) by (vm_compute; discriminate).
  split; [constructor|split; [|reflexivity]].
  - constructor; [left; auto|]. constructor; [right; auto|]. constructor; [left; auto|constructor].
  - exists [page 0; mkBlock 0 0 1 0 0 7 8 0 (fun _ => 0) 0], (page 1). split; [reflexivity|]. split; [auto|]. split; [reflexivity|]. split; [cbn; lia|]. constructor; [cbn; lia|]. constructor; [|constructor]. intros ((M & _) & _). discriminate M.
  - split; [exists (page 0); cbn; auto|]. split; [exists (page 1); cbn; auto|]. intros b [<-|[<-|[<-|[]]]]; cbn; try lia. intros ((M & _) & _). discriminate M.
Qed.
Example C54_sectors : image_ok [(0, fun o => o mod 256); (1, fun _ => 0); (77, fun _ => 255)] 0 ((0x10000000 + 2097152 - base_of 0x10000200) / 4096) /\ base_of 0x10000200 = 0x10010000.
Proof. vm_compute. repeat split; discriminate. Qed.
Example C54_loaded : match format true two 2097152 (fun _ => [(0, fun o => o mod 256); (77, fun _ => 255)]) with
  | Some out => (length out, flashed out 0x10000101, flashed out 0x10010203, flashed out (0x10010000 + 77 * 4096 + 4095), flashed out 0x10011000) = (35%nat, Some 2, Some 3, Some 255, None)
  | None => False
  end.
Proof. vm_compute. reflexivity. Qed.
