(* The command cp, kernel/cmd/cmd_copy.c.

   The file system below it is an abstract one: a list of paths with what is
   there.  FatFs itself is the subject of other files (FpathModel, FileModel);
   here its calls are modelled by what they do to names and contents.
   Simplifications: names are compared byte by byte, drive prefixes and
   attributes other than "directory" are left out, and every name is a legal
   one.  Paths are strings without their NUL.  Any call that needs the device
   may fail: luck tells how each one ends. *)
From Verif Require Import Base.
Open Scope Z_scope.

Definition name := list Z.
Definition path := list name.
Inductive obj := F (data : list Z) | D.
Definition files := list (path * obj).

Definition path_dec (a b : path) : {a = b} + {a <> b} := list_eq_dec (list_eq_dec Z.eq_dec) a b.
Fixpoint find (l : files) (p : path) : option obj :=
  match l with [] => None | (q, o) :: r => if path_dec q p then Some o else find r p end.
(* A new one comes last. *)
Fixpoint set (l : files) (p : path) (o : obj) : files :=
  match l with [] => [(p, o)] | (q, x) :: r => if path_dec q p then (q, o) :: r else (q, x) :: set r p o end.
(* The entries of directory p, in their order. *)
Fixpoint strip (p q : path) : option path :=
  match p, q with
  | [], q => Some q
  | a :: p, b :: q => if list_eq_dec Z.eq_dec a b then strip p q else None
  | _ :: _, [] => None
  end.
Definition children (l : files) (p : path) : list (name * obj) :=
  flat_map (fun e => match strip p (fst e) with Some [n] => [(n, snd e)] | _ => [] end) l.

(* fs_result_t *)
Inductive rc := OK | DISK_ERR | NO_FILE | NO_PATH | INVALID_NAME | DENIED | EXIST | LOCKED | TOO_MANY.
Definition is_ok (r : rc) : bool := match r with OK => true | _ => false end.

(* How a call ends: well, after n bytes because there is no more space, or with an error. *)
Inductive verdict := Fine | Short (n : nat) | Bad.

(* What is shown. *)
Inductive msg :=
| Ask (path : list Z)            (* "Overwrite ...?" *)
| Kept                           (* "Not overwritten." *)
| Failed (path : list Z) (r : rc)
| NoSpace (path : list Z)
| Copied (a b : list Z)          (* -v *)
| NoDir (path : list Z)          (* "Destination is not a directory, cannot copy" *)
| NeedsR (path : list Z)         (* "Cannot copy directory without -r option" *)
| NotDir (path : list Z)         (* "is not a directory" *)
| Usage.

(* opened: files and directories with a place in Files[] of fatfs.c; keys: reply[0] of
   each question; calls: calls so far; out: what is shown, last first. *)
Record world := World { fs : files; cwd : path; opened : list path; keys : list Z; calls : nat; out : list msg }.
Definition say (w : world) (m : msg) : world := World (fs w) (cwd w) (opened w) (keys w) (calls w) (m :: out w).
Definition tick (w : world) : world := World (fs w) (cwd w) (opened w) (keys w) (Datatypes.S (calls w)) (out w).
Definition with_fs (w : world) (l : files) : world := World l (cwd w) (opened w) (keys w) (calls w) (out w).
Definition with_opened (w : world) (l : list path) : world := World (fs w) (cwd w) l (keys w) (calls w) (out w).

(* fatfs/ffconf.h:159, FF_FS_LOCK; include/fpm/fs.h:60, FF_LFN_BUF *)
Definition LOCKS : nat := 16.
Definition LFN_BUF : Z := 255.

(* The components of a path; empty ones do not count. *)
Fixpoint comps (s : list Z) (cur : name) : list name :=
  match s with
  | [] => match cur with [] => [] | _ => [cur] end
  | c :: s => if c =? 47 then match cur with [] => comps s [] | _ => cur :: comps s [] end else comps s (cur ++ [c])
  end.
Definition dots (n : name) : bool := match n with [46] | [46; 46] => true | _ => false end.
Definition up (p : path) (n : name) : path := match n with [46] => p | _ => removelast p end.

(* What a path leads to: the directory it starts from, a dot entry, or a name. *)
Inductive target := Here (p : path) | Dot (p : path) | At (p : path) | Nowhere.
Fixpoint walk (l : files) (cur : path) (ns : list name) : target :=
  match ns with
  | [] => Here cur
  | n :: r =>
      match r with
      | [] => if dots n then match cur with [] => Here [] | _ => Dot (up cur n) end else At (cur ++ [n])
      | _ => if dots n then walk l (up cur n) r
             else match find l (cur ++ [n]) with Some D => walk l (cur ++ [n]) r | _ => Nowhere end
      end
  end.
Definition follow (w : world) (s : list Z) : target :=
  walk (fs w) (match s with 47 :: _ => [] | _ => cwd w end) (comps s []).

Section Cmd.
Variable luck : nat -> verdict.
Definition bad (w : world) : bool := match luck (calls w) with Bad => true | _ => false end.

(* f_stat: is it a directory? *)
Definition stat (w : world) (s : list Z) : world * rc * bool :=
  (tick w,
   if bad w then DISK_ERR else match follow w s with Here _ => INVALID_NAME | Dot _ => OK | At p => match find (fs w) p with Some _ => OK | None => NO_FILE end | Nowhere => NO_PATH end,
   match follow w s with Dot _ => true | At p => match find (fs w) p with Some D => true | _ => false end | _ => false end).

(* f_open (FA_READ): the file's path and contents *)
Definition open_read (w : world) (s : list Z) : world * rc * path * list Z :=
  if bad w then (tick w, DISK_ERR, [], [])
  else match follow w s with
       | At p => match find (fs w) p with
                 | Some (F data) => if (length (opened w) <? LOCKS)%nat then (tick (with_opened w (p :: opened w)), OK, p, data) else (tick w, TOO_MANY, [], [])
                 | _ => (tick w, NO_FILE, [], [])
                 end
       | Dot _ => (tick w, NO_FILE, [], [])
       | Here _ => (tick w, INVALID_NAME, [], [])
       | Nowhere => (tick w, NO_PATH, [], [])
       end.
(* f_open (FA_WRITE | FA_CREATE_ALWAYS): an open file is not opened for writing; one that
   exists is made empty *)
Definition open_write (w : world) (s : list Z) : world * rc * path :=
  if bad w then (tick w, DISK_ERR, [])
  else match follow w s with
       | At p =>
           let go := if (length (opened w) <? LOCKS)%nat then (tick (with_opened (with_fs w (set (fs w) p (F []))) (p :: opened w)), OK, p) else (tick w, TOO_MANY, []) in
           match find (fs w) p with
           | Some D => (tick w, DENIED, [])
           | Some (F _) => if existsb (fun q => if path_dec p q then true else false) (opened w) then (tick w, LOCKED, []) else go
           | None => go
           end
       | Dot _ => (tick w, DENIED, [])
       | Here _ => (tick w, INVALID_NAME, [])
       | Nowhere => (tick w, NO_PATH, [])
       end.
Fixpoint remove1 (p : path) (l : list path) : list path :=
  match l with [] => [] | q :: r => if path_dec p q then r else q :: remove1 p r end.
(* f_close of a file that was read *)
Definition close (w : world) (p : path) : world := tick (with_opened w (remove1 p (opened w))).
(* f_close of a file that was written: its directory entry is written here, by f_sync; the
   place in Files[] is given up if that went well (fatfs/fatfs.c, f_close). *)
Definition close_write (w : world) (p : path) (data : list Z) : world :=
  if bad w then tick w else tick (with_opened (with_fs w (set (fs w) p (F data))) (remove1 p (opened w))).
(* f_mkdir *)
Definition mkdir (w : world) (s : list Z) : world * rc :=
  if bad w then (tick w, DISK_ERR)
  else match follow w s with
       | At p => match find (fs w) p with Some _ => (tick w, EXIST) | None => (tick (with_fs w (set (fs w) p D)), OK) end
       | Here _ | Dot _ => (tick w, EXIST)
       | Nowhere => (tick w, NO_PATH)
       end.
(* f_opendir; the root directory needs no place in Files[] *)
Definition opendir (w : world) (s : list Z) : world * rc * path :=
  let go p := match p with
              | [] => (tick w, OK, [])
              | _ => if (length (opened w) <? LOCKS)%nat then (tick (with_opened w (p :: opened w)), OK, p) else (tick w, TOO_MANY, [])
              end in
  if bad w then (tick w, DISK_ERR, [])
  else match follow w s with
       | At p => match find (fs w) p with Some D => go p | _ => (tick w, NO_PATH, []) end
       | Here p | Dot p => go p
       | Nowhere => (tick w, NO_PATH, [])
       end.
Definition closedir (w : world) (p : path) : world := match p with [] => tick w | _ => close w p end.
(* f_readdir: entry number i *)
Definition readdir (w : world) (p : path) (i : nat) : world * rc * option (name * obj) :=
  if bad w then (tick w, DISK_ERR, None) else (tick w, OK, nth_error (children (fs w) p) i).

(* kernel/cmd/cmd_copy.c:13-17 *)
Record opts := Opts { force : bool; recursive : bool; verbose : bool }.

(* fpm_editline: the question and reply[0], 0 if there is no answer *)
Definition ask (w : world) (s : list Z) : world * bool :=
  let k := hd 0 (keys w) in
  (World (fs w) (cwd w) (opened w) (tl (keys w)) (calls w) (Ask s :: out w), (k =? 121) || (k =? 89)).

(* sizeof(buf), kernel/cmd/cmd_copy.c:62 *)
Definition BUF : nat := Z.to_nat 4096.

(* The loop of copy_file, kernel/cmd/cmd_copy.c:63-89; rest: what was not read yet, done:
   what was written.  The result is what the destination file contains, and whether the
   loop came to the end of the file. *)
Fixpoint copy_loop (fuel : nat) (w : world) (source destination : list Z) (rest done : list Z) : res (world * list Z * bool) :=
  match fuel with
  | O => NoFuel
  | Datatypes.S fuel =>
      if bad w then Ok (say (tick w) (Failed source DISK_ERR), done, false)
      else
        let w := tick w in
        let buf := firstn BUF rest in
        match buf with
        | [] => Ok (w, done, true)
        | _ =>
            match luck (calls w) with
            | Bad => Ok (say (tick w) (Failed destination DISK_ERR), done, false)
            | Short n =>
                if (n <? length buf)%nat then Ok (say (tick w) (NoSpace destination), done ++ firstn n buf, false)
                else copy_loop fuel (tick w) source destination (skipn BUF rest) (done ++ buf)
            | Fine => copy_loop fuel (tick w) source destination (skipn BUF rest) (done ++ buf)
            end
        end
  end.

(* copy_file, kernel/cmd/cmd_copy.c:22-96, from line 44 *)
Definition copy_contents (w : world) (source destination : list Z) (o : opts) : res world :=
  let '(w, r, p, data) := open_read w source in
  if negb (is_ok r) then Ok (say w (Failed source r))
  else
    let '(w, r, q) := open_write w destination in
    if negb (is_ok r) then Ok (close (say w (Failed destination r)) p)
    else
      '(w, done, fine) <- copy_loop (Datatypes.S (length data)) w source destination data [] ;;
      let w := close_write (close w p) q done in
      Ok (if fine && verbose o then say w (Copied source destination) else w).
Definition copy_file (w : world) (source destination : list Z) (o : opts) : res world :=
  if force o then copy_contents w source destination o
  else
    let '(w, r, _) := stat w destination in
    if is_ok r then
      let '(w, yes) := ask w destination in
      if yes then copy_contents w source destination o else Ok (say w Kept)
    else copy_contents w source destination o.

(* from_last[-1] of line 112: with nothing before it undefined.  The path and the slash. *)
Definition slashed (s : list Z) : res (list Z) :=
  match rev s with [] => Ub | c :: _ => Ok (if c =? 47 then s else s ++ [47]) end.
(* strcpy to the end of a buffer of n bytes that holds a *)
Definition append (n : Z) (a b : list Z) : res (list Z) :=
  if Z.of_nat (length a) + Z.of_nat (length b) + 1 <=? n then Ok (a ++ b) else Ub.

(* The loop of copy_recursive, kernel/cmd/cmd_copy.c:143-160; rec copies a directory; nf,
   nt: sizes of from and to; i: entries read. *)
Fixpoint copy_entries (fuel : nat) (rec : world -> list Z -> list Z -> res world) (w : world) (p : path) (i : nat) (nf nt : Z) (from to : list Z) (o : opts) : res world :=
  match fuel with
  | O => NoFuel
  | Datatypes.S fuel =>
      let '(w, r, e) := readdir w p i in
      if negb (is_ok r) then Ok w
      else
        match e with
        | None => Ok w
        | Some (n, x) =>
            a <- append nf from n ;;
            b <- append nt to n ;;
            w <- (match x with D => rec w a b | F _ => copy_file w a b o end) ;;
            copy_entries fuel rec w p (Datatypes.S i) nf nt from to o
        end
  end.

(* copy_recursive, kernel/cmd/cmd_copy.c:101-162; fuel: levels, and entries in each *)
Fixpoint copy_recursive (fuel : nat) (o : opts) (w : world) (source destination : list Z) : res world :=
  match fuel with
  | O => NoFuel
  | Datatypes.S fuel =>
      from <- slashed source ;;
      to <- slashed destination ;;
      let '(w, r, dir) := stat w destination in
      let scan w :=
        let '(w, r, p) := opendir w source in
        if negb (is_ok r) then Ok (say w (Failed source r))
        else
          w <- copy_entries fuel (copy_recursive fuel o) w p 0 (Z.of_nat (length source) + 1 + LFN_BUF + 1) (Z.of_nat (length destination) + 1 + LFN_BUF + 1) from to o ;;
          Ok (closedir w p) in
      if negb (is_ok r) then
        let '(w, r) := mkdir w destination in
        if negb (is_ok r) then Ok (say w (Failed destination r)) else scan w
      else if negb dir then Ok (say w (NoDir destination))
      else scan w
  end.

(* copy_object, kernel/cmd/cmd_copy.c:167-187 *)
Definition copy_object (fuel : nat) (o : opts) (w : world) (source destination : list Z) : res world :=
  let '(w, r, dir) := stat w source in
  if negb (is_ok r) then Ok (say w (Failed source r))
  else if dir then if recursive o then copy_recursive fuel o w source destination else Ok (say w (NeedsR source))
  else copy_file w source destination o.

(* The last component of a path that does not end with a slash, kernel/cmd/cmd_copy.c:230-233 *)
Fixpoint after_slash (s : list Z) (cur : list Z) : list Z :=
  match s with [] => cur | c :: s => after_slash s (if c =? 47 then [] else cur ++ [c]) end.

(* The loop of copy_to_directory, kernel/cmd/cmd_copy.c:221-237; n: size of destination;
   base: dest_dir with its slash; tail: the string behind it, None as long as the slash
   stands in the place of the NUL.  p[-1] of an empty source is outside of it. *)
Fixpoint copy_each (fuel : nat) (o : opts) (w : world) (n : Z) (base : list Z) (tail : option (list Z)) (sources : list (list Z)) : res world :=
  match sources with
  | [] => Ok w
  | s :: r =>
      tail <- (match rev s with
               | [] => Ub
               | c :: _ => if c =? 47 then Ok tail else let p := after_slash s [] in _ <- append n base p ;; Ok (Some p)
               end) ;;
      match tail with
      | None => Ub
      | Some t => w <- copy_object fuel o w s (base ++ t) ;; copy_each fuel o w n base tail r
      end
  end.
(* copy_to_directory, kernel/cmd/cmd_copy.c:208-238 *)
Definition copy_to_directory (fuel : nat) (o : opts) (w : world) (sources : list (list Z)) (dest_dir : list Z) : res world :=
  let n := Z.of_nat (length dest_dir) + LFN_BUF + 2 in
  match rev dest_dir with
  | 47 :: _ => copy_each fuel o w n dest_dir (Some []) sources
  | _ => copy_each fuel o w n (dest_dir ++ [47]) None sources
  end.

(* fpm_cmd_copy, kernel/cmd/cmd_copy.c:240-316, behind the options; args: the paths.  The
   empty line at the end is left out. *)
Definition fpm_cmd_copy (fuel : nat) (o : opts) (w : world) (args : list (list Z)) : res world :=
  match rev args with
  | [] | [_] => Ok (say w Usage)
  | destination :: sources =>
      let sources := rev sources in
      let '(w, r, dir) := stat w destination in
      let '(r, dir) := match r with INVALID_NAME => (OK, true) | _ => (r, dir) end in
      if negb (is_ok r) || negb dir then
        match sources with
        | [s] => copy_object fuel o w s destination
        | _ => Ok (say w (NotDir destination))
        end
      else copy_to_directory fuel o w sources destination
  end.
End Cmd.
