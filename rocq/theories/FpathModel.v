(* Paths and the directory tree, fatfs/fatfs.c (FAT12/16/32).  Directories are tables as in
   FdirModel; of the FAT only the chains and the free clusters are kept (see FatModel for
   create_chain and remove_chain).  No object is open (LockModel has the locks), the volume
   is mounted, drive prefixes are taken off (FpatModel); disk errors, sync_fs and exFAT are
   left out. *)
From Verif Require Import Base FutfModel LfnModel FdirModel FnameModel.
Open Scope Z_scope.

(* fat32: else FAT12 or FAT16, with a root directory of fixed size; epc: directory entries
   in a cluster; top: fs->n_fatent; dirs c: the table that starts at cluster c, 0 for the
   root; chains c: the clusters from c on (0: of the root); avail: the free clusters, in the
   order create_chain takes them; cdir: fs->cdir. *)
Record volume := mkVolume { fat32 : bool; epc : Z; top : Z; dirs : Z -> dirt; chains : Z -> list Z; avail : list Z; cdir : Z }.
Definition set_dirs (v : volume) (f : Z -> dirt) : volume := mkVolume (fat32 v) (epc v) (top v) f (chains v) (avail v) (cdir v).
Definition set_chains (v : volume) (f : Z -> list Z) (a : list Z) : volume := mkVolume (fat32 v) (epc v) (top v) (dirs v) f a (cdir v).
Definition set_cdir (v : volume) (c : Z) : volume := mkVolume (fat32 v) (epc v) (top v) (dirs v) (chains v) (avail v) c.
Definition put {A} (f : Z -> A) (c : Z) (x : A) : Z -> A := fun k => if k =? c then x else f k.

Inductive prc := R_OK | R_NO_FILE | R_NO_PATH | R_INVALID_NAME | R_DENIED | R_EXIST | R_INT_ERR | R_NOT_ENOUGH_CORE.
Definition of_drc (r : drc) : prc :=
  match r with D_OK => R_OK | D_NO_FILE => R_NO_FILE | D_DENIED => R_DENIED | D_INVALID_NAME => R_INVALID_NAME | D_INT_ERR => R_INT_ERR end.

(* A table of the volume: it can be stretched by all free clusters, but for a fixed root. *)
Definition fixed (v : volume) (c : Z) : bool := (c =? 0) && negb (fat32 v).
Definition table (v : volume) (c : Z) : dirt :=
  let d := dirs v c in mkDir (tab d) (cap d) (chunk d) (if fixed v c then 0 else Z.of_nat (length (avail v))).
Definition put_table (v : volume) (c : Z) (d : dirt) : volume :=
  let v' := set_dirs v (put (dirs v) c d) in
  if fixed v c then v'
  else
    let n := (length (avail v) - Z.to_nat (spare d))%nat in
    set_chains v' (put (chains v) c (chains v c ++ firstn n (avail v))) (skipn n (avail v)).
Definition entry (v : volume) (c i : Z) : Z -> Z := tab (dirs v c) i.
Definition set_entry (v : volume) (c i : Z) (e : Z -> Z) : volume :=
  set_dirs v (put (dirs v) c (set_tab (dirs v c) (set_ent (tab (dirs v c)) i e))).
(* remove_chain *)
Definition release (v : volume) (k : Z) : volume := set_chains v (put (chains v) k []) (chains v k ++ avail v).

(* st_dword, fatfs/fatfs.c:469-478 *)
Definition st_dword (e : Z -> Z) (o x : Z) : Z -> Z := st_word (st_word e o (x mod 65536)) (o + 2) (x / 65536 mod 65536).
(* ld_clust and st_clust, fatfs/fatfs.c:1603-1626 *)
Definition ld_clust (wide : bool) (e : Z -> Z) : Z := if wide then Z.lor (ld_word e 26) (Z.shiftl (ld_word e 20) 16) else ld_word e 26.
Definition st_clust (wide : bool) (e : Z -> Z) (c : Z) : Z -> Z :=
  let e := st_word e 26 (c mod 65536) in if wide then st_word e 20 (c / 65536 mod 65536) else e.

(* What follow_path leaves in directory_t: obj.sclust, fn, dptr / 32, blk_ofs / 32. *)
Record dj_t := mkDj { sclust : Z; fn : Z -> Z; idx : Z; blk : Z }.

(* The loop of follow_path, fatfs/fatfs.c:2755-2796; the buffer does not matter after an
   error. *)
Fixpoint follow_loop (fuel : nat) (v : volume) (path : list Z) (c : Z) (buf : Z -> Z) : res (prc * dj_t * (Z -> Z)) :=
  match fuel with
  | 0%nat => NoFuel
  | S fuel =>
      r <- create_name path buf ;;
      match r with
      | None => Ok (R_INVALID_NAME, mkDj c (fun _ => 0) 0 NONE, buf)
      | Some (path, fn, buf) =>
          '(r, i, b) <- dir_find (table v c) fn buf ;;
          let last := has (fn 11) 4 in
          match r with
          | D_OK =>
              if last then Ok (R_OK, mkDj c fn i b, buf)
              else if negb (has (Z.land (entry v c i 11) 63) 16) then Ok (R_NO_PATH, mkDj c fn i b, buf)
              else follow_loop fuel v path (ld_clust (fat32 v) (entry v c i)) buf
          | D_NO_FILE =>
              if has (fn 11) 32 then
                if negb last then follow_loop fuel v path c buf
                else Ok (R_OK, mkDj c (upd fn 11 128) i b, buf)
              else Ok (if negb last then R_NO_PATH else R_NO_FILE, mkDj c fn i b, buf)
          | r => Ok (of_drc r, mkDj c fn i b, buf)
          end
      end
  end.
(* follow_path, fatfs/fatfs.c:2714-2800 *)
Definition follow_path (v : volume) (path : list Z) (buf : Z -> Z) : res (prc * dj_t * (Z -> Z)) :=
  '(ch, _) <- next path ;;
  '(path, c) <- (if is_sep ch then path <- skip_seps path ;; Ok (path, 0) else Ok (path, cdir v)) ;;
  '(ch, _) <- next path ;;
  if ch <? 32 then Ok (R_OK, mkDj c (fun _ => 128) 0 NONE, buf)
  else follow_loop (S (length path)) v path c buf.

Definition attr_of (v : volume) (j : dj_t) : Z := Z.land (entry v (sclust j) (idx j) 11) 63.

(* Creating or overwriting, fatfs/fatfs.c:3512-3528; tm: GET_FATTIME *)
Definition overwrite (v : volume) (c i tm : Z) : volume :=
  let e := entry v c i in
  let k := ld_clust (fat32 v) e in
  let e := st_dword (st_dword e 14 tm) 22 tm in
  let e := st_dword (st_clust (fat32 v) (upd e 11 32) 0) 28 0 in
  let v := set_entry v c i e in
  if negb (k =? 0) then release v k else v.

(* f_open, fatfs/fatfs.c:3434-3553, up to the entry of the file: its directory and index.
   Modes: 1 read, 2 write, 4 create new, 8 create always, 16 open always. *)
Definition f_open (v : volume) (path : list Z) (mode tm : Z) (buf : Z -> Z) : res (volume * prc * option (Z * Z)) :=
  '(r, j, buf) <- follow_path v path buf ;;
  let r := match r with R_OK => if has (fn j 11) 128 then R_INVALID_NAME else R_OK | r => r end in
  let here := Some (sclust j, idx j) in
  if has mode 28 then
    match r with
    | R_NO_FILE =>
        '(d, q, i) <- dir_register (table v (sclust j)) (fn j) buf ;;
        let v := put_table v (sclust j) d in
        match q with
        | D_OK => Ok (overwrite v (sclust j) i tm, R_OK, Some (sclust j, i))
        | q => Ok (v, of_drc q, None)
        end
    | R_OK =>
        if has (attr_of v j) 17 then Ok (v, R_DENIED, None)
        else if has mode 4 then Ok (v, R_EXIST, None)
        else Ok (if has mode 8 then overwrite v (sclust j) (idx j) tm else v, R_OK, here)
    | r => Ok (v, r, None)
    end
  else
    match r with
    | R_OK =>
        if has (attr_of v j) 16 then Ok (v, R_NO_FILE, None)
        else if has mode 2 && has (attr_of v j) 1 then Ok (v, R_DENIED, None)
        else Ok (v, R_OK, here)
    | r => Ok (v, r, None)
    end.

(* f_unlink, fatfs/fatfs.c:4770-4840 *)
Definition f_unlink (v : volume) (path : list Z) (buf : Z -> Z) : res (volume * prc) :=
  '(r, j, buf) <- follow_path v path buf ;;
  match r with
  | R_OK =>
      if has (fn j 11) 32 then Ok (v, R_INVALID_NAME)
      else if has (fn j 11) 128 then Ok (v, R_INVALID_NAME)
      else if has (attr_of v j) 1 then Ok (v, R_DENIED)
      else
        let k := ld_clust (fat32 v) (entry v (sclust j) (idx j)) in
        r <- (if has (attr_of v j) 16 then
                if k =? cdir v then Ok R_DENIED
                else
                  '(q, _, _, _) <- dir_read (table v k) buf 0 NONE ;;
                  Ok (match q with D_OK => R_DENIED | D_NO_FILE => R_OK | q => of_drc q end)
              else Ok R_OK) ;;
        match r with
        | R_OK =>
            '(d, q) <- dir_remove (table v (sclust j)) (idx j) (blk j) ;;
            let v := put_table v (sclust j) d in
            match q with
            | D_OK => Ok (if negb (k =? 0) then release v k else v, R_OK)
            | q => Ok (v, of_drc q)
            end
        | r => Ok (v, r)
        end
  | r => Ok (v, r)
  end.

(* The table made by f_mkdir, fatfs/fatfs.c:4880-4893, with dir_clear *)
Definition dot_entry (wide : bool) (dcl tm : Z) : Z -> Z :=
  st_clust wide (st_dword (fun k => if k =? 0 then 46 else if (1 <=? k) && (k <? 11) then 32 else if k =? 11 then 16 else 0) 22 tm) dcl.
Definition new_table (wide : bool) (n dcl pcl tm : Z) : dirt :=
  let e := dot_entry wide dcl tm in
  mkDir (fun i => if i =? 0 then e else if i =? 1 then st_clust wide (upd e 1 46) pcl else fun _ => 0) n n 0.

(* f_mkdir, fatfs/fatfs.c:4851-4926 *)
Definition f_mkdir (v : volume) (path : list Z) (tm : Z) (buf : Z -> Z) : res (volume * prc) :=
  '(r, j, buf) <- follow_path v path buf ;;
  match r with
  | R_OK => Ok (v, R_EXIST)
  | R_NO_FILE =>
      if has (fn j 11) 32 then Ok (v, R_INVALID_NAME)
      else
        match avail v with
        | [] => Ok (v, R_DENIED)
        | dcl :: rest =>
            let v := set_chains v (put (chains v) dcl [dcl]) rest in
            let v := set_dirs v (put (dirs v) dcl (new_table (fat32 v) (epc v) dcl (sclust j) tm)) in
            '(d, q, i) <- dir_register (table v (sclust j)) (fn j) buf ;;
            let v := put_table v (sclust j) d in
            match q with
            | D_OK => Ok (set_entry v (sclust j) i (upd (st_clust (fat32 v) (st_dword (entry v (sclust j) i) 22 tm) dcl) 11 16), R_OK)
            | q => Ok (release v dcl, of_drc q)
            end
        end
  | r => Ok (v, r)
  end.

(* f_rename, fatfs/fatfs.c:4934-5050 *)
Definition f_rename (v : volume) (path_old path_new : list Z) (buf : Z -> Z) : res (volume * prc) :=
  '(r, jo, buf) <- follow_path v path_old buf ;;
  match r with
  | R_OK =>
      if has (fn jo 11) 160 then Ok (v, R_INVALID_NAME)
      else
        let old := entry v (sclust jo) (idx jo) in
        '(r, jn, buf) <- follow_path v path_new buf ;;
        let r := match r with R_OK => if (sclust jn =? sclust jo) && (idx jn =? idx jo) then R_NO_FILE else R_EXIST | r => r end in
        match r with
        | R_NO_FILE =>
            '(d, q, i) <- dir_register (table v (sclust jn)) (fn jn) buf ;;
            let v := put_table v (sclust jn) d in
            match q with
            | D_OK =>
                let e := entry v (sclust jn) i in
                let e := fun k => if (13 <=? k) && (k <? 32) then old k else e k in
                let e := upd e 11 (if negb (has (old 11) 16) then Z.lor (old 11) 32 else old 11) in
                let v := set_entry v (sclust jn) i e in
                let k := ld_clust (fat32 v) e in
                let '(v, r) :=
                  if has (e 11) 16 && negb (sclust jo =? sclust jn) then
                    if (k <? 2) || (top v <=? k) then (v, R_INT_ERR)
                    else if entry v k 1 1 =? 46 then (set_entry v k 1 (st_clust (fat32 v) (entry v k 1) (sclust jn)), R_OK)
                    else (v, R_OK)
                  else (v, R_OK) in
                match r with
                | R_OK => '(d, q) <- dir_remove (table v (sclust jo)) (idx jo) (blk jo) ;; Ok (put_table v (sclust jo) d, of_drc q)
                | r => Ok (v, r)
                end
            | q => Ok (v, of_drc q)
            end
        | r => Ok (v, r)
        end
  | r => Ok (v, r)
  end.

(* f_chmod and f_utime, fatfs/fatfs.c:5057-5130; t: date and time *)
Definition f_chmod (v : volume) (path : list Z) (attr mask : Z) (buf : Z -> Z) : res (volume * prc) :=
  '(r, j, _) <- follow_path v path buf ;;
  match r with
  | R_OK =>
      if has (fn j 11) 160 then Ok (v, R_INVALID_NAME)
      else
        let mask := Z.land mask 39 in
        let e := entry v (sclust j) (idx j) in
        Ok (set_entry v (sclust j) (idx j) (upd e 11 (Z.lor (Z.land attr mask) (Z.land (e 11) (Z.lxor 255 mask)))), R_OK)
  | r => Ok (v, r)
  end.
Definition f_utime (v : volume) (path : list Z) (t : Z) (buf : Z -> Z) : res (volume * prc) :=
  '(r, j, _) <- follow_path v path buf ;;
  match r with
  | R_OK =>
      if has (fn j 11) 160 then Ok (v, R_INVALID_NAME)
      else Ok (set_entry v (sclust j) (idx j) (st_dword (entry v (sclust j) (idx j)) 22 t), R_OK)
  | r => Ok (v, r)
  end.

(* f_opendir, fatfs/fatfs.c:4401-4455: the directory *)
Definition f_opendir (v : volume) (path : list Z) (buf : Z -> Z) : res (prc * Z) :=
  '(r, j, _) <- follow_path v path buf ;;
  Ok (match r with
      | R_OK =>
          if has (fn j 11) 128 then (R_OK, sclust j)
          else if has (attr_of v j) 16 then (R_OK, ld_clust (fat32 v) (entry v (sclust j) (idx j)))
          else (R_NO_PATH, 0)
      | R_NO_FILE => (R_NO_PATH, 0)
      | r => (r, 0)
      end).
(* f_chdir, fatfs/fatfs.c:4024-4078 *)
Definition f_chdir (v : volume) (path : list Z) (buf : Z -> Z) : res (volume * prc) :=
  '(r, c) <- f_opendir v path buf ;;
  Ok (match r with R_OK => (set_cdir v c, R_OK) | r => (v, r) end).

(* f_stat, fatfs/fatfs.c:4567-4591: the entry and the names *)
Definition f_stat (v : volume) (path : list Z) (buf : Z -> Z) : res (prc * option ((Z -> Z) * list Z * list Z)) :=
  '(r, j, buf) <- follow_path v path buf ;;
  match r with
  | R_OK =>
      if has (fn j 11) 128 then Ok (R_INVALID_NAME, None)
      else
        let e := entry v (sclust j) (idx j) in
        '(fname, alt) <- file_names e (blk j) buf ;; Ok (R_OK, Some (e, fname, alt))
  | r => Ok (r, None)
  end.

(* What opening for writing, changing (FileModel) and closing a file leaves: a chain of n
   clusters, or less if the disk is full, and the entry as f_sync writes it,
   fatfs/fatfs.c:3944-3951. *)
Definition f_store (v : volume) (path : list Z) (n : nat) (size tm : Z) (buf : Z -> Z) : res (volume * prc) :=
  '(v, r, h) <- f_open v path 2 tm buf ;;
  match r, h with
  | R_OK, Some (c, i) =>
      let e := entry v c i in
      let k := ld_clust (fat32 v) e in
      let old := if k =? 0 then [] else chains v k in
      let m := (n - length old)%nat in
      let ch := firstn n old ++ firstn m (avail v) in
      let v := set_chains v (put (chains v) k (if k =? 0 then chains v k else [])) (skipn n old ++ skipn m (avail v)) in
      let k := hd 0 ch in
      let v := set_chains v (if k =? 0 then chains v else put (chains v) k ch) (avail v) in
      let e := st_clust (fat32 v) (upd e 11 (Z.lor (e 11) 32)) k in
      let e := st_word (st_dword (st_dword e 28 size) 22 tm) 18 0 in
      Ok (set_entry v c i e, R_OK)
  | r, _ => Ok (v, r)
  end.

(* Operations, each with what is in the name buffer at first.  Shuffle: another order of
   the free clusters. *)
Inductive op :=
| Open (path : list Z) (mode tm : Z)
| Store (path : list Z) (n : nat) (size tm : Z)
| Unlink (path : list Z)
| Mkdir (path : list Z) (tm : Z)
| Rename (path_old path_new : list Z)
| Chmod (path : list Z) (attr mask : Z)
| Utime (path : list Z) (t : Z)
| Chdir (path : list Z)
| Shuffle (n : nat).
Definition shuffle (n : nat) (l : list Z) : list Z := firstn 1 (skipn n l) ++ firstn n l ++ skipn 1 (skipn n l).
Definition step (v : volume) (o : op) (buf : Z -> Z) : res (volume * prc) :=
  match o with
  | Open path mode tm => '(v, r, _) <- f_open v path mode tm buf ;; Ok (v, r)
  | Store path n size tm => f_store v path n size tm buf
  | Unlink path => f_unlink v path buf
  | Mkdir path tm => f_mkdir v path tm buf
  | Rename a b => f_rename v a b buf
  | Chmod path attr mask => f_chmod v path attr mask buf
  | Utime path t => f_utime v path t buf
  | Chdir path => f_chdir v path buf
  | Shuffle n => Ok (set_chains v (chains v) (shuffle n (avail v)), R_OK)
  end.
Fixpoint run (v : volume) (os : list (op * (Z -> Z))) : res (volume * list prc) :=
  match os with
  | [] => Ok (v, [])
  | (o, buf) :: os => '(v, r) <- step v o buf ;; '(v, rs) <- run v os ;; Ok (v, r :: rs)
  end.

(* f_getcwd, fatfs/fatfs.c:4084-4199, without the tests at its start.  buff of size len is
   a function; access outside is undefined. *)
Definition rdb (len : Z) (b : Z -> Z) (i : Z) : res Z := if (0 <=? i) && (i <? len) then Ok (b i) else Ub.
Definition wrb (len : Z) (b : Z -> Z) (i x : Z) : res (Z -> Z) := if (0 <=? i) && (i <? len) then Ok (upd b i x) else Ub.
(* Finding the entry of cluster ccl in table d, fatfs/fatfs.c:4136-4143 *)
Fixpoint find_child (fuel : nat) (v : volume) (d : dirt) (ccl i b : Z) (buf : Z -> Z) : res (prc * Z * Z * (Z -> Z)) :=
  match fuel with
  | 0%nat => NoFuel
  | S fuel =>
      '(r, i, b, buf) <- dir_read d buf i b ;;
      match r with
      | D_OK =>
          if ccl =? ld_clust (fat32 v) (tab d i) then Ok (R_OK, i, b, buf)
          else match dir_next d i false with (_, D_OK) => find_child fuel v d ccl (i + 1) b buf | (_, r) => Ok (of_drc r, i, b, buf) end
      | r => Ok (of_drc r, i, b, buf)
      end
  end.
(* Storing a name downwards from i, fatfs/fatfs.c:4156-4158; l: what is left, backwards. *)
Fixpoint stack (len : Z) (b : Z -> Z) (i : Z) (l : list Z) : res ((Z -> Z) * Z) :=
  match l with
  | [] => Ok (b, i)
  | c :: l => b <- wrb len b (i - 1) c ;; stack len b (i - 1) l
  end.
(* The loop, fatfs/fatfs.c:4124-4159 *)
Fixpoint up_loop (fuel : nat) (v : volume) (c i len : Z) (b : Z -> Z) (buf : Z -> Z) : res (prc * Z * (Z -> Z)) :=
  match fuel with
  | 0%nat => NoFuel
  | S fuel =>
      if c =? 0 then Ok (R_OK, i, b)
      else if cap (table v c) <=? 1 then Ok (R_INT_ERR, i, b)
      else
        let p := ld_clust (fat32 v) (entry v c 1) in
        let d := table v p in
        '(r, e, bk, buf) <- find_child (Z.to_nat (cap d)) v d c 0 NONE buf ;;
        match r with
        | R_OK =>
            '(fname, _) <- file_names (tab d e) bk buf ;;
            if i <? Z.of_nat (length fname) + 1 then Ok (R_NOT_ENOUGH_CORE, i, b)
            else
              '(b, i) <- stack len b i (rev fname) ;;
              b <- wrb len b (i - 1) 47 ;;
              up_loop fuel v p (i - 1) len b buf
        | R_NO_FILE => Ok (R_INT_ERR, i, b)
        | r => Ok (r, i, b)
        end
  end.
(* The copying, fatfs/fatfs.c:4190-4192 *)
Fixpoint copy_down (n : nat) (len : Z) (b : Z -> Z) (t i : Z) : res (Z * (Z -> Z)) :=
  match n with
  | 0%nat => Ok (t, b)
  | S n => x <- rdb len b i ;; b <- wrb len b t x ;; copy_down n len b (t + 1) (i + 1)
  end.
Fixpoint store_list (len : Z) (b : Z -> Z) (i : Z) (l : list Z) : res (Z -> Z) :=
  match l with
  | [] => Ok b
  | c :: l => b <- wrb len b i c ;; store_list len b (i + 1) l
  end.
(* drive: the name of the drive.  fuel: directories to go up. *)
Definition f_getcwd (fuel : nat) (v : volume) (drive : list Z) (len : Z) (b : Z -> Z) (buf : Z -> Z) : res (prc * (Z -> Z)) :=
  b <- wrb len b 0 0 ;;
  '(r, i, b) <- up_loop fuel v (cdir v) len len b buf ;;
  '(r, t, b) <-
    match r with
    | R_OK =>
        '(i, b) <- (if i =? len then b <- wrb len b (i - 1) 47 ;; Ok (i - 1, b) else Ok (i, b)) ;;
        let n := Z.of_nat (length drive) in
        if n + 2 <=? i then
          b <- store_list len b 0 (drive ++ [58]) ;;
          '(t, b) <- copy_down (Z.to_nat (len - i)) len b (n + 1) i ;; Ok (R_OK, t, b)
        else Ok (R_NOT_ENOUGH_CORE, 0, b)
    | r => Ok (r, 0, b)
    end ;;
  b <- wrb len b t 0 ;; Ok (r, b).
