(* Directory tables, fatfs/fatfs.c (FAT12/16/32).  A table is seen as an array of entries
   which dir_sdi, dir_next and move_window step through; stretching adds a cluster of
   zeroed entries while the disk has free clusters.  Tables are whole sectors (mount_volume
   checks this for the root directory); disk errors are left out. *)
From Verif Require Import Base LfnModel.
Open Scope Z_scope.

(* tab i o: byte o of entry i; cap entries exist now; a stretch adds chunk entries and is
   possible spare times. *)
Record dirt := mkDir { tab : Z -> Z -> Z; cap : Z; chunk : Z; spare : Z }.

Inductive drc := D_OK | D_NO_FILE | D_DENIED | D_INVALID_NAME | D_INT_ERR.

(* MAX_DIR / SZDIRE, fatfs/fatfs.c:36,192 *)
Definition MAXENT : Z := 65536.
Definition NONE : Z := 4294967295.
Definition DDEM : Z := 229.

Definition set_ent (t : Z -> Z -> Z) (i : Z) (e : Z -> Z) : Z -> Z -> Z := fun j => if j =? i then e else t j.
Definition set_tab (d : dirt) (t : Z -> Z -> Z) : dirt := mkDir t (cap d) (chunk d) (spare d).

(* dir_next, fatfs/fatfs.c:1493-1556, from entry i *)
Definition dir_next (d : dirt) (i : Z) (stretch : bool) : dirt * drc :=
  if MAXENT <=? i + 1 then (d, D_NO_FILE)
  else if i + 1 <? cap d then (d, D_OK)
  else if negb stretch then (d, D_NO_FILE)
  else if spare d <=? 0 then (d, D_DENIED)
  else (mkDir (fun j => if (cap d <=? j) && (j <? cap d + chunk d) then (fun _ => 0) else tab d j) (cap d + chunk d) (chunk d) (spare d - 1), D_OK).

(* memcmp(dp->dir, dp->fn, 11) == 0 *)
Definition eq11 (a b : Z -> Z) : bool := forallb (fun k => a k =? b k) [0; 1; 2; 3; 4; 5; 6; 7; 8; 9; 10].

Definition has (x bit : Z) : bool := negb (Z.land x bit =? 0).

(* dir_find, fatfs/fatfs.c:2145-2188: fn holds the short name and at index 11 the flags;
   buf is fs->lfnbuf.  Answers the entry and the start of its block. *)
Fixpoint find_loop (fuel : nat) (d : dirt) (fn buf : Z -> Z) (i ord sum blk : Z) : res (drc * Z * Z) :=
  match fuel with
  | 0%nat => NoFuel
  | S fuel =>
      let next ord sum blk :=
        match dir_next d i false with
        | (_, D_OK) => find_loop fuel d fn buf (i + 1) ord sum blk
        | (_, r) => Ok (r, i, blk)
        end in
      let e := tab d i in
      let c := e 0 in
      if c =? 0 then Ok (D_NO_FILE, i, blk)
      else
        let a := Z.land (e 11) 63 in
        if (c =? DDEM) || has a 8 && negb (a =? 15) then next 255 sum NONE
        else if a =? 15 then
          if has (fn 11) 64 then next ord sum blk
          else
            let '(c, ord, sum, blk) := if has c 64 then (Z.land c 191, Z.land c 191, e 13, i) else (c, ord, sum, blk) in
            m <- (if (c =? ord) && (sum =? e 13) then cmp_lfn buf e else Ok false) ;;
            next (if m then (ord - 1) mod 256 else 255) sum blk
        else if (ord =? 0) && (sum =? sum_sfn e) then Ok (D_OK, i, blk)
        else if negb (has (fn 11) 1) && eq11 e fn then Ok (D_OK, i, blk)
        else next 255 sum NONE
  end.
Definition dir_find (d : dirt) (fn buf : Z -> Z) : res (drc * Z * Z) := find_loop (Z.to_nat (cap d)) d fn buf 0 255 255 NONE.

(* dir_read(dp, 0), fatfs/fatfs.c:2036-2101, from entry i *)
Fixpoint read_loop (fuel : nat) (d : dirt) (buf : Z -> Z) (i ord sum blk : Z) : res (drc * Z * Z * (Z -> Z)) :=
  match fuel with
  | 0%nat => NoFuel
  | S fuel =>
      let next buf ord sum blk :=
        match dir_next d i false with
        | (_, D_OK) => read_loop fuel d buf (i + 1) ord sum blk
        | (_, r) => Ok (r, i, blk, buf)
        end in
      let e := tab d i in
      let b := e 0 in
      if b =? 0 then Ok (D_NO_FILE, i, blk, buf)
      else
        let a := Z.land (e 11) 63 in
        if (b =? DDEM) || (b =? 46) || (Z.land a 223 =? 8) then next buf 255 sum blk
        else if a =? 15 then
          let '(b, ord, sum, blk) := if has b 64 then (Z.land b 191, Z.land b 191, e 13, i) else (b, ord, sum, blk) in
          '(buf, m) <- (if (b =? ord) && (sum =? e 13) then pick_lfn buf e else Ok (buf, false)) ;;
          next buf (if m then (ord - 1) mod 256 else 255) sum blk
        else Ok (D_OK, i, if negb (ord =? 0) || negb (sum =? sum_sfn e) then NONE else blk, buf)
  end.
Definition dir_read (d : dirt) (buf : Z -> Z) (i blk : Z) : res (drc * Z * Z * (Z -> Z)) := read_loop (Z.to_nat (cap d - i)) d buf i 255 255 blk.

(* dir_alloc, fatfs/fatfs.c:1563-1596 *)
Fixpoint alloc_loop (fuel : nat) (d : dirt) (i n cnt : Z) : res (dirt * drc * Z) :=
  match fuel with
  | 0%nat => NoFuel
  | S fuel =>
      let free := (tab d i 0 =? DDEM) || (tab d i 0 =? 0) in
      let cnt := if free then cnt + 1 else 0 in
      if free && (cnt =? n) then Ok (d, D_OK, i)
      else
        match dir_next d i true with
        | (d, D_OK) => alloc_loop fuel d (i + 1) n cnt
        | (d, D_NO_FILE) => Ok (d, D_DENIED, i)
        | (d, r) => Ok (d, r, i)
        end
  end.
Definition dir_alloc (d : dirt) (n : Z) : res (dirt * drc * Z) := alloc_loop (Z.to_nat MAXENT) d 0 n 0.

(* The hash of gen_numname, fatfs/fatfs.c:1759-1768. *)
Fixpoint hash_bits (n : nat) (sreg wc : Z) : Z :=
  match n with
  | 0%nat => sreg
  | S n =>
      let sreg := u32 (sreg * 2) + Z.land wc 1 in
      hash_bits n (if has sreg 65536 then Z.lxor sreg 69665 else sreg) (wc / 2)
  end.
Fixpoint hash_loop (fuel : nat) (lfn : Z -> Z) (i sreg : Z) : res Z :=
  match fuel with
  | 0%nat => NoFuel
  | S fuel => wc <- rd lfn i ;; if wc =? 0 then Ok sreg else hash_loop fuel lfn (i + 1) (hash_bits 16 sreg wc)
  end.

(* The suffix, fatfs/fatfs.c:1772-1780: ns[i..7]; i counts down. *)
Fixpoint suffix_loop (i : nat) (seq : Z) (ns : Z -> Z) : Z * (Z -> Z) :=
  match i with
  | 0%nat => (0, upd ns 0 126)
  | S j =>
      let c := seq mod 16 + 48 in
      let c := if 57 <? c then c + 7 else c in
      let ns := upd ns (Z.of_nat i) c in
      if seq / 16 =? 0 then (Z.of_nat j, upd ns (Z.of_nat j) 126) else suffix_loop j (seq / 16) ns
  end.
(* fatfs/fatfs.c:1782-1788; no byte starts a double byte character (dbc_1st). *)
Fixpoint space_at (n : nat) (dst : Z -> Z) (j i : Z) : Z :=
  match n with
  | 0%nat => j
  | S n => if (j <? i) && negb (dst j =? 32) then space_at n dst (j + 1) i else j
  end.
(* fatfs/fatfs.c:1789-1791 *)
Fixpoint append (n : nat) (dst ns : Z -> Z) (j i : Z) : Z -> Z :=
  match n with
  | 0%nat => dst
  | S n =>
      let dst := upd dst j (if i <? 8 then ns i else 32) in
      let i := if i <? 8 then i + 1 else i in
      if j + 1 <? 8 then append n dst ns (j + 1) i else dst
  end.
(* gen_numname, fatfs/fatfs.c:1743-1793; byte 11 of dst is kept. *)
Definition gen_numname (dst src lfn : Z -> Z) (seq : Z) : res (Z -> Z) :=
  let dst := fun k => if (0 <=? k) && (k <? 11) then src k else dst k in
  seq <- (if 5 <? seq then hash_loop (Z.to_nat LFNBUF) lfn 0 seq else Ok seq) ;;
  let '(i, ns) := suffix_loop 7 seq (fun _ => 0) in
  Ok (append 8 dst ns (space_at 8 dst 0 i) i).

(* The search for a free numbered name, fatfs/fatfs.c:2246-2261: the name, or an answer. *)
Fixpoint number_loop (fuel : nat) (d : dirt) (fn sn buf : Z -> Z) (n : Z) : res ((Z -> Z) + drc) :=
  match fuel with
  | 0%nat => Ok (inr D_DENIED)
  | S fuel =>
      fn <- gen_numname fn sn buf n ;;
      '(r, _, _) <- dir_find d fn buf ;;
      match r with
      | D_OK => number_loop fuel d fn sn buf (n + 1)
      | D_NO_FILE => Ok (inl fn)
      | r => Ok (inr r)
      end
  end.

(* Storing the entries of a long name, fatfs/fatfs.c:2273-2283: from entry i on, n to go. *)
Fixpoint put_parts (n : nat) (d : dirt) (buf : Z -> Z) (i sum : Z) : res (dirt * drc * Z) :=
  match n with
  | 0%nat => Ok (d, D_OK, i)
  | S m =>
      e <- put_lfn buf (tab d i) (Z.of_nat n) sum ;;
      let d := set_tab d (set_ent (tab d) i e) in
      match dir_next d i false with
      | (_, D_OK) => put_parts m d buf (i + 1) sum
      | (_, r) => Ok (d, r, i)
      end
  end.

(* The length of the name, fatfs/fatfs.c:2204-2205. *)
Fixpoint name_len (fuel : nat) (buf : Z -> Z) (i : Z) : res Z :=
  match fuel with
  | 0%nat => NoFuel
  | S fuel => x <- rd buf i ;; if x =? 0 then Ok i else name_len fuel buf (i + 1)
  end.

(* dir_register, fatfs/fatfs.c:2197-2297: the answer and the entry made. *)
Definition dir_register (d : dirt) (fn buf : Z -> Z) : res (dirt * drc * Z) :=
  if has (fn 11) 160 then Ok (d, D_INVALID_NAME, 0)
  else
    len <- name_len (Z.to_nat LFNBUF) buf 0 ;;
    r <- (if has (fn 11) 1 then number_loop 99 d (upd fn 11 64) fn buf 1 else Ok (inl fn)) ;;
    match r with
    | inr r => Ok (d, r, 0)
    | inl f =>
        let f := upd f 11 (fn 11) in
        let n := if has (fn 11) 2 then (len + 12) / 13 + 1 else 1 in
        '(d, r, i) <- dir_alloc d n ;;
        match r with
        | D_OK =>
            '(d, r, i) <- (if n =? 1 then Ok (d, D_OK, i)
                           else if i - (n - 1) <? 0 then Ok (d, D_INT_ERR, i)
                           else put_parts (Z.to_nat (n - 1)) d buf (i - (n - 1)) (sum_sfn f)) ;;
            match r with
            | D_OK =>
                let e := fun k => if (0 <=? k) && (k <? 11) then f k else if k =? 12 then Z.land (f 11) 24 else if (0 <=? k) && (k <? 32) then 0 else tab d i k in
                Ok (set_tab d (set_ent (tab d) i e), D_OK, i)
            | r => Ok (d, r, i)
            end
        | r => Ok (d, r, i)
        end
    end.

(* dir_remove, fatfs/fatfs.c:2306-2339, of the block from blk to entry i *)
Fixpoint remove_loop (n : nat) (d : dirt) (j last : Z) : res (dirt * drc) :=
  match n with
  | 0%nat => NoFuel
  | S n =>
      let d := set_tab d (set_ent (tab d) j (upd (tab d j) 0 DDEM)) in
      if last <=? j then Ok (d, D_OK)
      else
        match dir_next d j false with
        | (_, D_OK) => remove_loop n d (j + 1) last
        | (_, D_NO_FILE) => Ok (d, D_INT_ERR)
        | (_, r) => Ok (d, r)
        end
  end.
Definition dir_remove (d : dirt) (i blk : Z) : res (dirt * drc) := remove_loop (Z.to_nat (cap d)) d (if blk =? NONE then i else blk) i.

(* Reading the whole directory from entry i on, as with f_readdir (fatfs/fatfs.c:4492-4516)
   until it reports the end: for each file its entry, the start of its block and the name
   buffer.  Each call has a buffer of its own with any contents (bufs). *)
Fixpoint list_loop (fuel : nat) (d : dirt) (bufs : Z -> Z -> Z) (i blk : Z) : res (list (Z * Z * (Z -> Z))) :=
  match fuel with
  | 0%nat => NoFuel
  | S fuel =>
      '(r, i, blk, buf) <- dir_read d (bufs i) i blk ;;
      match r with
      | D_OK =>
          match dir_next d i false with
          | (_, D_OK) => rest <- list_loop fuel d bufs (i + 1) blk ;; Ok ((i, blk, buf) :: rest)
          | _ => Ok [(i, blk, buf)]
          end
      | _ => Ok []
      end
  end.
Definition list_dir (d : dirt) (bufs : Z -> Z -> Z) : res (list (Z * Z * (Z -> Z))) := list_loop (Z.to_nat (cap d)) d bufs 0 NONE.
