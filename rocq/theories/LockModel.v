(* Model of the FatFs table of open objects: chk_share, enq_share, inc_share,
   dec_share, clear_share of fatfs/fatfs.c, and of the parts of f_open, f_close,
   f_opendir, f_closedir, f_unlink, f_rename, mount_volume and f_unmount that use
   it.  A filesystem_t pointer is a number, 0 for NULL. *)
From Verif Require Import Base.
Open Scope Z_scope.

(* FILESEM, fatfs/fatfs.c:295-301 *)
Record sem := mkSem { s_fs : Z; s_clu : Z; s_ofs : Z; s_ctr : Z }.

(* An object as directory_t names it: obj.fs, obj.sclust, dptr. *)
Record key := mkKey { k_fs : Z; k_clu : Z; k_ofs : Z }.

(* The results used here. *)
Inductive frc := FR_OK | FR_LOCKED | FR_TOO_MANY_OPEN_FILES | FR_INT_ERR | FR_INVALID_OBJECT.

Definition same (f : sem) (k : key) : bool :=
  (s_fs f =? k_fs k) && (s_clu f =? k_clu k) && (s_ofs f =? k_ofs k).

(* The search loop of chk_share, fatfs/fatfs.c:672-681: the entry found and the
   flag be. *)
Fixpoint chk_loop (files : list sem) (k : key) (be : bool) : option sem * bool :=
  match files with
  | [] => (None, be)
  | f :: r => if negb (s_fs f =? 0) then if same f k then (Some f, be) else chk_loop r k be else chk_loop r k true
  end.

(* chk_share, fatfs/fatfs.c:664-690; acc 0 read, 1 write, 2 delete or rename *)
Definition chk_share (files : list sem) (k : key) (acc : Z) : frc :=
  match chk_loop files k false with
  | (None, be) => if negb be && negb (acc =? 2) then FR_TOO_MANY_OPEN_FILES else FR_OK
  | (Some f, _) => if negb (acc =? 0) || (s_ctr f =? 256) then FR_LOCKED else FR_OK
  end.

(* The index of the first entry with a property; its length if none. *)
Fixpoint index (p : sem -> bool) (files : list sem) : nat :=
  match files with [] => O | f :: r => if p f then O else S (index p r) end.
Definition blank (f : sem) : bool := s_fs f =? 0.

(* enq_share, fatfs/fatfs.c:692-699 *)
Definition enq_share (files : list sem) : bool := negb (index blank files =? length files)%nat.

Fixpoint set_nth (files : list sem) (i : nat) (f : sem) : list sem :=
  match files, i with
  | [], _ => []
  | _ :: r, O => f :: r
  | x :: r, S j => x :: set_nth r j f
  end.

(* The end of inc_share, fatfs/fatfs.c:727-732, for entry i with contents f. *)
Definition inc_entry (files : list sem) (i : nat) (f : sem) (acc : Z) : list sem * Z :=
  if (1 <=? acc) && negb (s_ctr f =? 0) then (set_nth files i f, 0)
  else (set_nth files i (mkSem (s_fs f) (s_clu f) (s_ofs f) (if negb (acc =? 0) then 256 else (s_ctr f + 1) mod 4294967296)),
        Z.of_nat i + 1).

(* inc_share, fatfs/fatfs.c:705-733: the table and the index, from 1; 0 for an
   error. *)
Definition inc_share (files : list sem) (k : key) (acc : Z) : list sem * Z :=
  let i := index (fun f => same f k) files in
  if (i =? length files)%nat then
    let j := index blank files in
    if (j =? length files)%nat then (files, 0)
    else inc_entry files j (mkSem (k_fs k) (k_clu k) (k_ofs k) 0) acc
  else match nth_error files i with Some f => inc_entry files i f acc | None => (files, 0) end.

(* dec_share, fatfs/fatfs.c:738-760; --i is unsigned, so 0 is out of range. *)
Definition dec_share (files : list sem) (lockid : Z) : list sem * frc :=
  let i := (lockid - 1) mod 4294967296 in
  if i <? Z.of_nat (length files) then
    match nth_error files (Z.to_nat i) with
    | None => (files, FR_INT_ERR)
    | Some f =>
        let n := s_ctr f in
        let n := if n =? 256 then 0 else n in
        let n := if 0 <? n then n - 1 else n in
        (set_nth files (Z.to_nat i) (mkSem (if n =? 0 then 0 else s_fs f) (s_clu f) (s_ofs f) n), FR_OK)
    end
  else (files, FR_INT_ERR).

(* clear_share, fatfs/fatfs.c:762-771 *)
Definition clear_share (files : list sem) (fs : Z) : list sem :=
  map (fun f => if s_fs f =? fs then mkSem 0 (s_clu f) (s_ofs f) (s_ctr f) else f) files.

(* --- the functions around it ------------------------------------------------ *)

(* The parts of obj_id_t in a file_t or directory_t that matter here. *)
Record handle := mkHandle { h_fs : Z; h_id : Z; h_lockid : Z }.

(* Files, Fsid, fs_type and id of each volume, and the caller's handles in order
   of creation. *)
Record state := mkState { files : list sem; fsid : Z; mounted : Z -> bool; vol_id : Z -> Z; handles : list handle }.

Definition put (f : Z -> bool) (v : Z) (b : bool) (x : Z) : bool := if x =? v then b else f x.
Definition putz (f : Z -> Z) (v : Z) (b : Z) (x : Z) : Z := if x =? v then b else f x.

(* The end of mount_volume, fatfs/fatfs.c:3266-3278, for a volume found good;
   Fsid is a uint16_t. *)
Definition mount (s : state) (v : Z) : state :=
  let id := (fsid s + 1) mod 65536 in
  mkState (clear_share (files s) v) id (put (mounted s) v true) (putz (vol_id s) v id) (handles s).

(* mount_volume, fatfs/fatfs.c:2992-3278: mounts if needed. *)
Definition mount_volume (s : state) (v : Z) : state := if mounted s v then s else mount s v.

(* f_unmount, fatfs/fatfs.c:3367-3390 *)
Definition unmount (s : state) (v : Z) : state :=
  if mounted s v then mkState (clear_share (files s) v) (fsid s) (put (mounted s) v false) (vol_id s) (handles s) else s.

Definition add_handle (s : state) (fs' : list sem) (h : handle) : state :=
  mkState fs' (fsid s) (mounted s) (vol_id s) (handles s ++ [h]).

Definition none : handle := mkHandle 0 0 0.

(* Locking in f_open, fatfs/fatfs.c:3455-3553, of an existing file; [acc] is 1
   if mode has more than FA_READ. *)
Definition open_file (s : state) (k : key) (acc : Z) : state * frc :=
  let s := mount_volume s (k_fs k) in
  match chk_share (files s) k acc with
  | FR_OK =>
      let '(fs', id) := inc_share (files s) k acc in
      if id =? 0 then (add_handle s fs' none, FR_INT_ERR)
      else (add_handle s fs' (mkHandle (k_fs k) (vol_id s (k_fs k)) id), FR_OK)
  | e => (add_handle s (files s) none, e)
  end.

(* The same for a file that is created, fatfs/fatfs.c:3473-3479: k is the entry
   dir_register made. *)
Definition create_file (s : state) (k : key) : state * frc :=
  let s := mount_volume s (k_fs k) in
  if enq_share (files s) then
    let '(fs', id) := inc_share (files s) k 1 in
    if id =? 0 then (add_handle s fs' none, FR_INT_ERR)
    else (add_handle s fs' (mkHandle (k_fs k) (vol_id s (k_fs k)) id), FR_OK)
  else (add_handle s (files s) none, FR_TOO_MANY_OPEN_FILES).

(* The key of an open directory, fatfs/fatfs.c:4420-4440: its own first cluster
   and, after dir_sdi, offset 0. *)
Definition dir_key (fs own : Z) : key := mkKey fs own 0.

(* f_opendir, fatfs/fatfs.c:4399-4455; the root directory is not locked. *)
Definition open_dir (s : state) (fs own : Z) : state * frc :=
  let s := mount_volume s fs in
  if own =? 0 then (add_handle s (files s) (mkHandle fs (vol_id s fs) 0), FR_OK)
  else
    let '(fs', id) := inc_share (files s) (dir_key fs own) 0 in
    if id =? 0 then (add_handle s fs' none, FR_TOO_MANY_OPEN_FILES)
    else (add_handle s fs' (mkHandle fs (vol_id s fs) id), FR_OK).

(* validate, fatfs/fatfs.c:3286-3315, with the drive kept initialized *)
Definition validate (s : state) (h : handle) : bool :=
  negb (h_fs h =? 0) && mounted s (h_fs h) && (h_id h =? vol_id s (h_fs h)).

Fixpoint set_handle (l : list handle) (i : nat) (h : handle) : list handle :=
  match l, i with
  | [], _ => []
  | _ :: r, O => h :: r
  | x :: r, S j => x :: set_handle r j h
  end.

(* f_close and f_closedir, fatfs/fatfs.c:3966-3995, 4461-4485; f_closedir does
   not call dec_share for lockid 0, which only directories have. *)
Definition close (s : state) (i : nat) : state * frc :=
  match nth_error (handles s) i with
  | None => (s, FR_INVALID_OBJECT)
  | Some h =>
      if validate s h then
        let '(fs', r) := if h_lockid h =? 0 then (files s, FR_OK) else dec_share (files s) (h_lockid h) in
        match r with
        | FR_OK => (mkState fs' (fsid s) (mounted s) (vol_id s) (set_handle (handles s) i (mkHandle 0 (h_id h) (h_lockid h))), FR_OK)
        | e => (mkState fs' (fsid s) (mounted s) (vol_id s) (handles s), e)
        end
      else (s, FR_INVALID_OBJECT)
  end.

(* The check of f_unlink and f_rename, fatfs/fatfs.c:4788-4791, 4952-4955 *)
Definition delete (s : state) (k : key) : state * frc :=
  let s := mount_volume s (k_fs k) in (s, chk_share (files s) k 2).

Inductive op :=
| Open (k : key) (write : bool)
| Create (k : key)
| OpenDir (fs own : Z)
| Close (i : nat)
| Delete (k : key)
| Mount (v : Z)
| Unmount (v : Z).

Definition step (s : state) (o : op) : state * frc :=
  match o with
  | Open k w => open_file s k (if w then 1 else 0)
  | Create k => create_file s k
  | OpenDir fs own => open_dir s fs own
  | Close i => close s i
  | Delete k => delete s k
  | Mount v => (mount_volume s v, FR_OK)
  | Unmount v => (unmount s v, FR_OK)
  end.

Fixpoint run (s : state) (os : list op) : state * list frc :=
  match os with
  | [] => (s, [])
  | o :: r => let '(s, a) := step s o in let '(s, l) := run s r in (s, a :: l)
  end.

(* At start-up everything is zero. *)
Definition start : state := mkState (repeat (mkSem 0 0 0 0) 16) 0 (fun _ => false) (fun _ => 0) [].
