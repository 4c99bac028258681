(* Model of the entries of a file in a directory of an exFAT volume, fatfs/fatfs.c: the
   checksums, building, storing and loading them, comparing the name.  The directory is
   a list of entries of 32 bytes; the drive does not fail.  [dirb] is fs->dirbuf, the
   name in fs->lfnbuf is a list of units with its 0. *)
From Verif Require Import Base Arr FutfModel.
Open Scope Z_scope.

(* One step of the sums, fatfs/fatfs.c:1825, in 16 bits *)
Definition rot (s : Z) : Z := (if Z.odd s then 32768 else 0) + s / 2.
Definition add (s b : Z) : Z := (rot s + b) mod 65536.

(* The loop of xdir_sum, fatfs/fatfs.c:1821-1827: n bytes are left from i on. *)
Fixpoint sum_loop (n : nat) (dir : list Z) (i : nat) (s : Z) : res Z :=
  match n with
  | O => Ok s
  | S m =>
      if (i =? 2)%nat then match m with O => Ok s | S l => sum_loop l dir 4 s end
      else b <- rd dir i ;; sum_loop m dir (S i) (add s b)
  end.
(* xdir_sum, fatfs/fatfs.c:1815-1829 *)
Definition xdir_sum (dir : list Z) : res Z :=
  n <- rd dir 1 ;; sum_loop (Z.to_nat ((n + 1) * 32)) dir 0 0.

(* xname_sum, fatfs/fatfs.c:1832-1843 *)
Fixpoint name_sum (name : list Z) (s : Z) : res Z :=
  match name with
  | [] => Ub
  | c :: r => if c =? 0 then Ok s else u <- ff_wtoupper c ;; name_sum r (add (add s (u mod 256)) (u / 256))
  end.

(* st_word and ld_word, fatfs/fatfs.c:426-433 and 462-467 *)
Definition st_word (b : list Z) (i : nat) (x : Z) : res (list Z) := b <- wr b i (x mod 256) ;; wr b (S i) (x / 256 mod 256).
Definition ld_word (b : list Z) (i : nat) : res Z := x <- rd b i ;; y <- rd b (S i) ;; Ok (x + 256 * y).

(* The inner loop of create_xdir, fatfs/fatfs.c:2013-2018: fifteen units; nlen has 8 bits. *)
Fixpoint fill_name (fuel : nat) (b lfn : list Z) (i nlen : nat) (wc : Z) : res (list Z * nat * nat * Z) :=
  match fuel with
  | O => NoFuel
  | S k =>
      '(wc, nlen) <- (if wc =? 0 then Ok (wc, nlen) else c <- rd lfn nlen ;; Ok (c, if c =? 0 then nlen else (S nlen mod 256)%nat)) ;;
      b <- st_word b i wc ;;
      let i := S (S i) in
      if (i mod 32 =? 0)%nat then Ok (b, i, nlen, wc) else fill_name k b lfn i nlen wc
  end.
(* The outer loop, fatfs/fatfs.c:2010-2020 *)
Fixpoint fill_entries (fuel : nat) (b lfn : list Z) (i nlen nc1 : nat) (wc : Z) : res (list Z * nat * nat) :=
  match fuel with
  | O => NoFuel
  | S k =>
      b <- wr b i 193 ;;
      b <- wr b (S i) 0 ;;
      '(b, i, nlen, wc) <- fill_name 16 b lfn (S (S i)) nlen wc ;;
      c <- rd lfn nlen ;;
      if c =? 0 then Ok (b, nlen, S nc1) else fill_entries k b lfn i nlen (S nc1) wc
  end.
(* create_xdir, fatfs/fatfs.c:1994-2025 *)
Definition create_xdir (b lfn : list Z) : res (list Z) :=
  if (length b <? 64)%nat then Ub
  else
    b <- wr (repeat 0 64 ++ skipn 64 b) 0 133 ;;
    b <- wr b 32 192 ;;
    '(b, nlen, nc1) <- fill_entries 20 b lfn 64 0 0 1 ;;
    b <- wr b 35 (Z.of_nat nlen) ;;
    b <- wr b 1 (Z.of_nat (S nc1) mod 256) ;;
    h <- name_sum lfn 0 ;;
    st_word b 36 h.

(* The loop of store_xdir, fatfs/fatfs.c:1976-1987; dir_next fails behind the last entry. *)
Fixpoint store_loop (n : nat) (tab : list (list Z)) (k : nat) (b : list Z) : res (list (list Z) * bool) :=
  match n with
  | O => Ok (tab, true)
  | S m =>
      if (length b <? 32)%nat then Ub
      else if (k <? length tab)%nat then store_loop m (set_at tab k (firstn 32 b)) (S k) (skipn 32 b)
      else Ok (tab, false)
  end.
(* store_xdir, fatfs/fatfs.c:1964-1988: the directory, dirbuf, and FR_OK or FR_INT_ERR *)
Definition store_xdir (tab : list (list Z)) (k : nat) (b : list Z) : res (list (list Z) * list Z * bool) :=
  s <- xdir_sum b ;;
  b <- st_word b 2 s ;;
  n <- rd b 1 ;;
  '(tab, ok) <- store_loop (Z.to_nat (n + 1)) tab k b ;;
  Ok (tab, b, ok).

(* memcpy of one entry to offset i *)
Definition copy (b : list Z) (i : nat) (e : list Z) : res (list Z) :=
  if (i + 32 <=? length b)%nat && (32 <=? length e)%nat then Ok (firstn i b ++ firstn 32 e ++ skipn (i + 32) b) else Ub.
(* The entry at k if there is one and it is of type t *)
Definition typed (tab : list (list Z)) (k : nat) (t : Z) : res (option (list Z)) :=
  match nth_error tab k with
  | None => Ok None
  | Some e => x <- rd e 0 ;; Ok (if x =? t then Some e else None)
  end.
(* The loop of load_xdir, fatfs/fatfs.c:1895-1909; n entries are left.  MAXDIRB (255) is 608. *)
Fixpoint load_names (n : nat) (tab : list (list Z)) (k : nat) (b : list Z) (i : nat) : res (list Z * bool) :=
  match n with
  | O => Ok (b, true)
  | S m =>
      e <- typed tab k 193 ;;
      match e with
      | None => Ok (b, false)
      | Some e =>
          b <- (if (i <? 608)%nat then copy b i e else Ok b) ;;
          load_names m tab (S k) b (i + 32)
      end
  end.
(* load_xdir, fatfs/fatfs.c:1859-1917: dirbuf, and FR_OK or FR_INT_ERR *)
Definition load_xdir (tab : list (list Z)) (k : nat) (b : list Z) : res (list Z * bool) :=
  e <- typed tab k 133 ;;
  match e with
  | None => Ok (b, false)
  | Some e =>
      b <- copy b 0 e ;;
      n <- rd b 1 ;;
      if (n + 1 <? 3) || (19 <? n + 1) then Ok (b, false)
      else
        e <- typed tab (S k) 192 ;;
        match e with
        | None => Ok (b, false)
        | Some e =>
            b <- copy b 32 e ;;
            l <- rd b 35 ;;
            if n + 1 <? (l + 44) / 15 then Ok (b, false)
            else
              '(b, ok) <- load_names (Z.to_nat (n - 1)) tab (S (S k)) b 64 ;;
              if negb ok then Ok (b, false)
              else
                s <- xdir_sum b ;;
                w <- ld_word b 2 ;;
                Ok (b, s =? w)
        end
  end.

(* The comparison of dir_find, fatfs/fatfs.c:2130-2140: nc units are left, the next at di. *)
Fixpoint same_loop (nc : nat) (b : list Z) (di : nat) (lfn : list Z) : res bool :=
  match nc with
  | O => match lfn with [] => Ub | c :: _ => Ok (c =? 0) end
  | S m =>
      let di := if (di mod 32 =? 0)%nat then S (S di) else di in
      match lfn with
      | [] => Ub
      | c :: r =>
          w <- ld_word b di ;;
          u <- ff_wtoupper w ;;
          v <- ff_wtoupper c ;;
          if u =? v then same_loop m b (S (S di)) r else Ok false
      end
  end.
Definition named (b lfn : list Z) : res bool :=
  hash <- name_sum lfn 0 ;;
  w <- ld_word b 36 ;;
  if negb (w =? hash) then Ok false
  else l <- rd b 35 ;; same_loop (Z.to_nat l) b 64 lfn.

(* What f_open and f_sync put into the block, fatfs/fatfs.c:3502-3504 and 3917-3930, and
   what init_alloc_info (1923-1930) and get_fileinfo (2395-2398) take out of it. *)
Record meta := Meta { m_attr : Z; m_flags : Z; m_clust : Z; m_size : Z; m_time : Z }.
Fixpoint st_le (n : nat) (b : list Z) (i : nat) (x : Z) : res (list Z) :=
  match n with O => Ok b | S m => b <- wr b i (x mod 256) ;; st_le m b (S i) (x / 256) end.
Fixpoint ld_le (n : nat) (b : list Z) (i : nat) : res Z :=
  match n with O => Ok 0 | S m => x <- rd b i ;; y <- ld_le m b (S i) ;; Ok (x + 256 * y) end.
Definition put_meta (b : list Z) (m : meta) : res (list Z) :=
  b <- wr b 4 (m_attr m) ;;
  b <- wr b 33 (m_flags m) ;;
  b <- st_le 4 b 52 (m_clust m) ;;
  b <- st_le 8 b 56 (m_size m) ;;
  b <- st_le 8 b 40 (m_size m) ;;
  b <- st_le 4 b 12 (m_time m) ;;
  b <- wr b 21 0 ;;
  st_le 4 b 16 0.
Definition get_meta (b : list Z) : res meta :=
  a <- rd b 4 ;;
  f <- rd b 33 ;;
  c <- ld_le 4 b 52 ;;
  n <- ld_le 8 b 56 ;;
  t <- ld_le 4 b 12 ;;
  Ok (Meta a f c n t).

(* Reading a directory: dir_read on exFAT without labels, fatfs/fatfs.c:2044-2094, from entry p on.
   A file found is given with its place, dirbuf, and the entry where load_xdir left dp, the last
   one of the set; dir_next fails behind the last entry. *)
Inductive xread := Xfound (k : nat) (b : list Z) (p : nat) | Xnone | Xerr.
Fixpoint dir_read_x (n : nat) (tab : list (list Z)) (p : nat) (b : list Z) : res xread :=
  match n with
  | O => NoFuel
  | S m =>
      match nth_error tab p with
      | None => Ok Xnone
      | Some e =>
          t <- rd e 0 ;;
          if t =? 0 then Ok Xnone
          else if t =? 133 then
            '(b, ok) <- load_xdir tab p b ;;
            if ok then c <- rd b 1 ;; Ok (Xfound p b (p + Z.to_nat c)) else Ok Xerr
          else dir_read_x m tab (S p) b
      end
  end.
(* dir_find on exFAT, fatfs/fatfs.c:2116-2143 *)
Fixpoint find_x (n : nat) (tab : list (list Z)) (p : nat) (b lfn : list Z) : res xread :=
  match n with
  | O => NoFuel
  | S m =>
      r <- dir_read_x (S (length tab)) tab p b ;;
      match r with
      | Xfound k b q => y <- named b lfn ;; if y then Ok r else find_x m tab q b lfn
      | _ => Ok r
      end
  end.
Definition dir_find_x (tab : list (list Z)) (b lfn : list Z) : res xread := find_x (S (length tab)) tab 0 b lfn.

(* f_readdir until it finds no more, fatfs/fatfs.c:4489-4515, on exFAT: the places of the files and
   dirbuf as get_fileinfo finds it; false if an error ends it. *)
Fixpoint list_x (n : nat) (tab : list (list Z)) (p : nat) (b : list Z) : res (list (nat * list Z) * bool) :=
  match n with
  | O => NoFuel
  | S m =>
      r <- dir_read_x (S (length tab)) tab p b ;;
      match r with
      | Xfound k b q => '(l, ok) <- list_x m tab (S q) b ;; Ok ((k, b) :: l, ok)
      | Xnone => Ok ([], true)
      | Xerr => Ok ([], false)
      end
  end.
Definition readdir_x (tab : list (list Z)) (b : list Z) : res (list (nat * list Z) * bool) := list_x (S (length tab)) tab 0 b.

(* dir_remove on exFAT, fatfs/fatfs.c:2306-2337: the entries from p to last are no longer in use *)
Fixpoint remove_x (n : nat) (tab : list (list Z)) (p last : nat) : res (list (list Z) * bool) :=
  match n with
  | O => NoFuel
  | S m =>
      match nth_error tab p with
      | None => Ok (tab, false)
      | Some e =>
          t <- rd e 0 ;;
          e <- wr e 0 (Z.land t 127) ;;
          if (last <=? p)%nat then Ok (set_at tab p e, true) else remove_x m (set_at tab p e) (S p) last
      end
  end.
(* What f_unlink does to the directory of a file that is not open and may be written,
   fatfs/fatfs.c:4770-4845: found and removed; None: FR_NO_FILE.  Its clusters are C142. *)
Definition unlink_x (tab : list (list Z)) (b lfn : list Z) : res (list (list Z) * option bool) :=
  r <- dir_find_x tab b lfn ;;
  match r with
  | Xfound k _ q => '(tab, ok) <- remove_x (S (length tab)) tab k q ;; Ok (tab, Some ok)
  | Xnone => Ok (tab, None)
  | Xerr => Ok (tab, Some false)
  end.

(* dir_alloc on exFAT, fatfs/fatfs.c:1563-1594, without stretching the table: n free entries
   were seen before the entries left, the next is p; the last entry of the run. *)
Fixpoint alloc_x (tab : list (list Z)) (p n need : nat) : res (option nat) :=
  match tab with
  | [] => Ok None
  | e :: r =>
      t <- rd e 0 ;;
      if Z.land t 128 =? 0 then if (S n =? need)%nat then Ok (Some p) else alloc_x r (S p) (S n) need
      else alloc_x r (S p) 0 need
  end.
(* The new entries of a file: dir_register on exFAT, fatfs/fatfs.c:2206-2214 and 2242-2244, which
   counts the name and gives up if dir_alloc finds no room (None: FR_DENIED), then the fields and
   store_xdir. *)
Fixpoint count (lfn : list Z) : res nat :=
  match lfn with [] => Ub | c :: r => if c =? 0 then Ok 0%nat else n <- count r ;; Ok (S n) end.
Definition new_x (tab : list (list Z)) (b lfn : list Z) (m : meta) : res (option (list (list Z))) :=
  len <- count lfn ;;
  let need := ((len + 14) / 15 + 2)%nat in
  q <- alloc_x tab 0 0 need ;;
  match q with
  | None => Ok None
  | Some q =>
      b <- create_xdir b lfn ;;
      b <- put_meta b m ;;
      '(tab, _, ok) <- store_xdir tab (q + 1 - need) b ;;
      if ok then Ok (Some tab) else Ub
  end.
