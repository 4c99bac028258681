(* C46: entries of the file allocation table.  C47: cluster chains. *)
From Verif Require Import Base FatModel FatSpec FatProof FatProof2 FatProof3 FatProof4 FatProof5 FatProof6 FatExample.
Open Scope Z_scope.

(* C46.  Reading an entry gives its value, as the FAT defines it, and changes nothing. *)
Theorem C46_get g v c : geo_ok g -> vol_ok g v -> 2 <= c < n_fatent g ->
  exists v', get_fat g v c = Ok (v', entry g v c) /\ vol_ok g v' /\
    (forall i, 0 <= i < fsize g * ss g -> fat_byte g v' i = fat_byte g v i) /\ same_outside g v v' /\ same_info v v'.
Proof. exact (get_all g v c). Qed.
Print Assumptions C46_get.

(* C46.  Writing an entry changes this entry, keeps the reserved bits of FAT32, every
   other entry and every byte that is not part of it. *)
Theorem C46_put g v c x : geo_ok g -> vol_ok g v -> 2 <= c < n_fatent g -> 0 <= x < 4294967296 ->
  exists v', put_fat g v c x = Ok (v', FR_OK) /\ vol_ok g v' /\
    entry g v' c = x mod modulus (ftype g) /\
    (forall c', 0 <= c' < n_fatent g -> c' <> c -> entry g v' c' = entry g v c') /\
    (forall i, 0 <= i < fsize g * ss g -> ~ touched (ftype g) c i -> fat_byte g v' i = fat_byte g v i) /\
    (ftype g = FAT32 -> reserved g v' c = reserved g v c) /\
    same_outside g v v' /\ same_info v v'.
Proof. exact (put_all g v c x). Qed.
Print Assumptions C46_put.

(* C46.  Any history of reading and writing entries, of reading and writing other
   sectors through the same window, and of flushing it, gives the answers of a table of
   entries and an array of sectors; nothing is accessed outside the window. *)
Theorem C46_history g v d xs : geo_ok g -> vol_ok g v -> Forall (legal g) xs -> means g v d ->
  exists v', do_ops g v xs = Ok (v', snd (ideal_ops g d xs)) /\ vol_ok g v' /\ means g v' (fst (ideal_ops g d xs)).
Proof. exact (history_ok g xs v d). Qed.
Print Assumptions C46_history.

(* C46.  After a flush everything is on the disk, and every copy of the FAT holds the
   table. *)
Theorem C46_stored g v d : geo_ok g -> vol_ok g v -> means g v d ->
  exists v', sync_window g v = (v', FR_OK) /\ vol_ok g v' /\ means g v' d /\ wflag v' = false /\ stored g v' d.
Proof. exact (stored_ok g v d). Qed.
Print Assumptions C46_stored.

(* Entry 341 of a FAT12 lies in two sectors; a directory sector is changed in between. *)
Example C46_example :
  (geo_ok floppy /\ vol_ok floppy blank /\ geo_ok card /\ vol_ok card blank32) /\
  (exists v, do_ops floppy blank [Put 341 2748; Put 340 801; Poke 9 5 77; Get 341; Get 340; Get 342; Put 342 4660; Get 341; Peek 9 5; Get 1; Put 400 7; Sync] =
             Ok (v, [0; 0; 0; 2748; 801; 0; 0; 2748; 77; 1; 2; 0])) /\
  (exists v, put_fat card blank32 5 4294967295 = Ok (v, FR_OK) /\ entry card v 5 = 268435455 /\
             map (win v) [19; 20; 21; 22; 23; 24] = [240; 255; 255; 255; 255; 240]).
Proof.
  split; [split; [exact floppy_ok|split; [exact blank_ok|split; [exact card_ok|exact blank32_ok]]]|]. split.
  - eexists. vm_compute. reflexivity.
  - eexists. split; [reflexivity|]. split; vm_compute; reflexivity.
Qed.
Print Assumptions C46_example.

(* C47.  Extending a file: the new cluster was free and belongs to no file; afterwards
   the file has it and nobody else has changed.  "Disk full" is said only when no cluster
   is free, and then nothing changes. *)
Theorem C47_grow g v cs i fuel : geo_ok g -> owns g v cs -> (i < length cs)%nat -> n_fatent g <= Z.of_nat fuel ->
  let l := nth i cs [] in
  exists v' x, create_chain fuel g v (ends l) = Ok (v', x) /\ same_outside g v v' /\ (winsect v' = winsect v \/ in_fat g (winsect v')) /\
    ((x = 0 /\ (forall c, 2 <= c < n_fatent g -> entry g v c <> 0) /\
      (forall c, 0 <= c < n_fatent g -> entry g v' c = entry g v c) /\ same_info v v' /\ owns g v' cs) \/
     (2 <= x < n_fatent g /\ entry g v x = 0 /\ ~ In x (concat cs) /\ owns g v' (edit cs i (l ++ [x])) /\
      (forall c, 2 <= c < n_fatent g -> ~ In c (concat cs) -> c <> x -> entry g v' c = entry g v c))).
Proof. exact (grow_ok g v cs i fuel). Qed.
Print Assumptions C47_grow.

(* C47.  Cutting a file frees exactly the clusters cut off. *)
Theorem C47_cut g v cs i k fuel : geo_ok g -> owns g v cs -> (i < length cs)%nat -> n_fatent g <= Z.of_nat fuel ->
  let l := nth i cs [] in (k < length l)%nat ->
  exists v', remove_chain fuel g v (nth k l 0) (match k with O => 0 | S j => nth j l 0 end) = Ok (v', FR_OK) /\
    same_outside g v v' /\ owns g v' (edit cs i (firstn k l)) /\
    (forall c, In c (skipn k l) -> entry g v' c = 0) /\
    (forall c, 2 <= c < n_fatent g -> ~ In c l -> entry g v' c = entry g v c) /\
    last_clst v' = last_clst v /\ (winsect v' = winsect v \/ in_fat g (winsect v')).
Proof. exact (cut_ok g v cs i k fuel). Qed.
Print Assumptions C47_cut.

(* C47.  Over any history files keep their chains apart; the free count stays right, and
   sectors outside the FAT are not touched. *)
Theorem C47_history g v cs xs fuel : geo_ok g -> owns g v cs -> n_fatent g <= Z.of_nat fuel ->
  exists v' cs', do_fops fuel g v cs xs = Ok (v', cs') /\ owns g v' cs' /\ same_outside g v v' /\ length cs' = length cs.
Proof. exact (fops_ok g fuel xs v cs). Qed.
Print Assumptions C47_history.

(* C47.  Reading the FAT from cluster to cluster meets the chain and ends. *)
Theorem C47_follow g v cs l : geo_ok g -> owns g v cs -> In l cs -> follows g v l.
Proof. exact (follows_ok g v cs l). Qed.
Print Assumptions C47_follow.

Example C47_example :
  owns floppy blank [[]; []] /\
  exists v, do_fops 500 floppy blank [[]; []] [Grow 0; Grow 1; Grow 0; Cut 0 1; Grow 1; Grow 1; Cut 0 0; Grow 0] = Ok (v, [[6]; [3; 4; 5]]) /\
            free_clst v = 394.
Proof.
  split; [exact blank_owns|]. eexists. split.
  - vm_compute. reflexivity.
  - vm_compute. reflexivity.
Qed.
Print Assumptions C47_example.
