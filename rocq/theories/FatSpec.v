(* What a file allocation table is, in terms of the bytes of the volume. *)
From Verif Require Import Base FatModel.
Open Scope Z_scope.

(* A volume that fits on its drive: the FATs lie on it, are large enough for the
   clusters, and the kind of FAT fits the number of clusters. *)
Record geo_ok (g : geo) : Prop := {
  ok_ss : ss g = 512 \/ ss g = 1024 \/ ss g = 2048 \/ ss g = 4096;
  ok_base : 0 < fatbase g;
  ok_fsize : 0 < fsize g;
  ok_fats : n_fats g = 1 \/ n_fats g = 2;
  ok_disk : fatbase g + n_fats g * fsize g <= dsize g;
  ok_dsize : dsize g < 4294967295;
  ok_ent : 2 < n_fatent g;
  ok_type : n_fatent g <= match ftype g with FAT12 => 4087 | FAT16 => 65527 | FAT32 => 268435447 end;
  ok_room : match ftype g with FAT12 => (3 * n_fatent g + 1) / 2 | FAT16 => 2 * n_fatent g | FAT32 => 4 * n_fatent g end
            <= fsize g * ss g }.

(* The sectors of the second FAT, which nobody but sync_window writes. *)
Definition second (g : geo) (s : Z) : Prop :=
  n_fats g = 2 /\ fatbase g + fsize g <= s < fatbase g + 2 * fsize g.
Definition in_fat (g : geo) (s : Z) : Prop := fatbase g <= s < fatbase g + fsize g.
Definition mine (g : geo) (s : Z) : Prop := 0 <= s < dsize g /\ ~ second g s.

(* The content of a sector, as the file system means it: what is waiting in the
   window counts. *)
Definition view (v : vol) (s o : Z) : Z := if s =? winsect v then win v o else disk v s o.

Definition vbyte (x : Z) : Prop := 0 <= x < 256.

(* The window holds one sector, changed or not; the second FAT is a copy of the
   first, except for what is waiting in the window. *)
Record vol_ok (g : geo) (v : vol) : Prop := {
  ok_dbyte : forall s o, vbyte (disk v s o);
  ok_wbyte : forall o, vbyte (win v o);
  ok_sect : mine g (winsect v) \/ (winsect v = ERR /\ wflag v = false);
  ok_clean : wflag v = false -> mine g (winsect v) -> forall o, 0 <= o < ss g -> win v o = disk v (winsect v) o;
  ok_mirror : n_fats g = 2 -> forall s o, in_fat g s -> 0 <= o < ss g -> disk v (s + fsize g) o = disk v s o }.

(* Byte [i] of the file allocation table. *)
Definition fat_byte (g : geo) (v : vol) (i : Z) : Z := view v (fatbase g + i / ss g) (i mod ss g).

(* Entry [c], as the FAT specification defines it. *)
Definition entry_of (t : fat) (b : Z -> Z) (c : Z) : Z :=
  match t with
  | FAT12 => if Z.even c then b (3 * c / 2) + 256 * (b (3 * c / 2 + 1) mod 16)
             else b (3 * c / 2) / 16 + 16 * b (3 * c / 2 + 1)
  | FAT16 => b (2 * c) + 256 * b (2 * c + 1)
  | FAT32 => b (4 * c) + 256 * b (4 * c + 1) + 65536 * b (4 * c + 2) + 16777216 * (b (4 * c + 3) mod 16)
  end.
Definition entry (g : geo) (v : vol) (c : Z) : Z := entry_of (ftype g) (fat_byte g v) c.

(* The bytes which hold entry [c] or a part of it. *)
Definition touched (t : fat) (c i : Z) : Prop :=
  match t with FAT12 => 3 * c / 2 <= i <= 3 * c / 2 + 1 | FAT16 => 2 * c <= i <= 2 * c + 1 | FAT32 => 4 * c <= i <= 4 * c + 3 end.

(* The four bits of a FAT32 entry which do not belong to it. *)
Definition reserved (g : geo) (v : vol) (c : Z) : Z := fat_byte g v (4 * c + 3) / 16.

(* Width of an entry: 2^12, 2^16, 2^28. *)
Definition modulus (t : fat) : Z := match t with FAT12 => 4096 | FAT16 => 65536 | FAT32 => 268435456 end.

(* Sectors outside the FATs. *)
Definition outside (g : geo) (s : Z) : Prop := mine g s /\ ~ in_fat g s.
Definition same_outside (g : geo) (v v' : vol) : Prop :=
  forall s o, outside g s -> 0 <= o < ss g -> view v' s o = view v s o.
Definition same_fat (g : geo) (v v' : vol) : Prop :=
  forall s o, in_fat g s -> 0 <= o < ss g -> view v' s o = view v s o.
Definition same_info (v v' : vol) : Prop :=
  free_clst v' = free_clst v /\ last_clst v' = last_clst v /\ fsi_flag v' = fsi_flag v.

(* --- what happens on a volume ------------------------------------------------ *)

(* Reading and changing entries, and reading and changing bytes of other sectors
   (directories) through the same window; writing back. *)
Inductive op := Get (c : Z) | Put (c x : Z) | Peek (s o : Z) | Poke (s o b : Z) | Sync.

Definition legal (g : geo) (x : op) : Prop :=
  match x with
  | Get c => 0 <= c < 4294967296
  | Put c x => 0 <= c < 4294967296 /\ 0 <= x < 4294967296
  | Peek s o => outside g s /\ 0 <= o < ss g
  | Poke s o b => outside g s /\ 0 <= o < ss g /\ vbyte b
  | Sync => True
  end.

Definition code (r : frc) : Z := match r with FR_OK => 0 | FR_DISK_ERR => 1 | FR_INT_ERR => 2 | FR_DENIED => 7 end.

Definition do_op (g : geo) (v : vol) (x : op) : res (vol * Z) :=
  match x with
  | Get c => get_fat g v c
  | Put c x => '(v, r) <- put_fat g v c x ;; Ok (v, code r)
  | Peek s o => let '(v, r) := move_window g v s in
                match r with FR_OK => b <- rd (win v) o ;; Ok (v, b) | e => Ok (v, code e) end
  | Poke s o b => let '(v, r) := move_window g v s in
                match r with FR_OK => w <- wr (win v) o b ;; Ok (dirty v w, 0) | e => Ok (v, code e) end
  | Sync => let '(v, r) := sync_window g v in Ok (v, code r)
  end.
Fixpoint do_ops (g : geo) (v : vol) (xs : list op) : res (vol * list Z) :=
  match xs with
  | [] => Ok (v, [])
  | x :: xs => '(v, a) <- do_op g v x ;; '(v, l) <- do_ops g v xs ;; Ok (v, a :: l)
  end.

(* An ideal volume has a table of entries and sectors of bytes. *)
Record ideal := mkIdeal { table : Z -> Z; sectors : Z -> Z -> Z }.
Definition at_ (f : Z -> Z) (i x : Z) (j : Z) : Z := if j =? i then x else f j.
Definition ideal_op (g : geo) (d : ideal) (x : op) : ideal * Z :=
  match x with
  | Get c => (d, if (2 <=? c) && (c <? n_fatent g) then table d c else 1)
  | Put c x => if (2 <=? c) && (c <? n_fatent g)
               then (mkIdeal (at_ (table d) c (x mod modulus (ftype g))) (sectors d), 0)
               else (d, 2)
  | Peek s o => (d, sectors d s o)
  | Poke s o b => (mkIdeal (table d) (fun s' => if s' =? s then at_ (sectors d s) o b else sectors d s'), 0)
  | Sync => (d, 0)
  end.
Fixpoint ideal_ops (g : geo) (d : ideal) (xs : list op) : ideal * list Z :=
  match xs with
  | [] => (d, [])
  | x :: xs => let '(d, a) := ideal_op g d x in let '(d, l) := ideal_ops g d xs in (d, a :: l)
  end.

Definition means (g : geo) (v : vol) (d : ideal) : Prop :=
  (forall c, 0 <= c < n_fatent g -> entry g v c = table d c) /\
  (forall s o, outside g s -> 0 <= o < ss g -> view v s o = sectors d s o).

(* Everything is on the disk: both FATs hold the table. *)
Definition disk_fat (g : geo) (v : vol) (k i : Z) : Z := disk v (fatbase g + k * fsize g + i / ss g) (i mod ss g).
Definition stored (g : geo) (v : vol) (d : ideal) : Prop :=
  (forall k c, 0 <= k < n_fats g -> 0 <= c < n_fatent g -> entry_of (ftype g) (disk_fat g v k) c = table d c) /\
  (forall s o, outside g s -> 0 <= o < ss g -> disk v s o = sectors d s o).

(* --- chains ------------------------------------------------------------------- *)

(* The clusters of a file: each entry points to the next, the last one is an end
   mark.  End marks and bad clusters are numbers beyond the last cluster. *)
Fixpoint chain (g : geo) (E : Z -> Z) (l : list Z) : Prop :=
  match l with
  | [] => True
  | c :: l' => 2 <= c < n_fatent g /\ match l' with [] => n_fatent g <= E c | d :: _ => E c = d end /\ chain g E l'
  end.

(* The clusters free to use. *)
Definition clusters (g : geo) : list Z := map (fun i => 2 + Z.of_nat i) (seq 0 (Z.to_nat (n_fatent g - 2))).
Definition free_in (E : Z -> Z) (c : Z) : bool := E c =? 0.
Definition count_free (g : geo) (E : Z -> Z) : Z := Z.of_nat (length (filter (free_in E) (clusters g))).

(* A volume whose files own the chains [cs]: no cluster belongs to two of them or
   twice to one; the rest is free or marked bad; the free count, if known, is right. *)
Record owns (g : geo) (v : vol) (cs : list (list Z)) : Prop := {
  ow_vol : vol_ok g v;
  ow_chain : Forall (chain g (entry g v)) cs;
  ow_nodup : NoDup (concat cs);
  ow_rest : forall c, 2 <= c < n_fatent g -> ~ In c (concat cs) -> entry g v c = 0 \/ n_fatent g <= entry g v c;
  ow_free : free_clst v = count_free g (entry g v) \/ free_clst v = ERR;
  ow_last : 0 <= last_clst v < 4294967296 }.

Definition ends (l : list Z) : Z := last l 0.
Definition edit {A} (l : list A) (i : nat) (x : A) : list A := firstn i l ++ x :: skipn (S i) l.

(* Extending the file [i] by a cluster (a file without clusters gets its first), and
   cutting its chain down to [k] clusters. *)
Inductive fop := Grow (i : nat) | Cut (i k : nat).
Definition do_fop (fuel : nat) (g : geo) (v : vol) (cs : list (list Z)) (x : fop) : res (vol * list (list Z)) :=
  match x with
  | Grow i =>
      if (i <? length cs)%nat then
        let l := nth i cs [] in
        '(v, n) <- create_chain fuel g v (ends l) ;;
        Ok (v, if n =? 0 then cs else edit cs i (l ++ [n]))
      else Ok (v, cs)
  | Cut i k =>
      let l := nth i cs [] in
      if (k <? length l)%nat then
        '(v, r) <- remove_chain fuel g v (nth k l 0) (match k with O => 0 | S j => nth j l 0 end) ;;
        match r with FR_OK => Ok (v, edit cs i (firstn k l)) | _ => Ok (v, []) end
      else Ok (v, cs)
  end.
Fixpoint do_fops (fuel : nat) (g : geo) (v : vol) (cs : list (list Z)) (xs : list fop) : res (vol * list (list Z)) :=
  match xs with
  | [] => Ok (v, cs)
  | x :: xs => '(v, cs) <- do_fop fuel g v cs x ;; do_fops fuel g v cs xs
  end.

(* Following a chain as readers do: get_fat until an end mark. *)
Definition follows (g : geo) (v : vol) (l : list Z) : Prop :=
  forall i, (i < length l)%nat ->
    exists v', get_fat g v (nth i l 0) = Ok (v', entry g v (nth i l 0)) /\
               ((S i < length l)%nat -> entry g v (nth i l 0) = nth (S i) l 0) /\
               (S i = length l -> n_fatent g <= entry g v (nth i l 0)).

(* No cluster is free. *)
Definition none_free (g : geo) (v : vol) : Prop := forall c, 2 <= c < n_fatent g -> entry g v c <> 0.
