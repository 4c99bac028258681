(* The commands rm and mv, kernel/cmd/cmd_remove.c and cmd_rename.c, on a volume of
   FpathModel.  Paths are strings without their NUL. *)
From Verif Require Import Base FutfModel LfnModel FdirModel FnameModel FpathModel LockModel.
Open Scope Z_scope.

(* Options, kernel/cmd/cmd_remove.c:13-17 *)
Record opts := mkOpts { force : bool; recursive : bool; verbose : bool }.

(* Results: of FpathModel, or FR_TOO_MANY_OPEN_FILES *)
Inductive crc := Rc (r : prc) | TooMany.

(* What is shown: the question for a file or directory, a path (-v), a path with an error,
   two paths, two paths with an error, and messages. *)
Inductive msg :=
| Ask (dir : bool) (path : list Z)
| Shown (path : list Z)
| Failed (path : list Z) (r : crc)
| Shown2 (a b : list Z)
| Failed2 (a b : list Z) (r : crc)
| Kept                    (* "Not removed." or "Not overwritten." *)
| NeedsR (path : list Z)  (* "Cannot remove directory without -r option" *)
| NotDir (path : list Z)  (* "is not a directory" *)
| Across (path : list Z)  (* "cannot move across devices" *)
| Usage.

(* vol: the volume; sems: Files[] of fatfs.c (LockModel); keys: reply[0] of each question;
   calls: operations done so far; out: what is shown, last first. *)
Record world := mkWorld { vol : volume; sems : list sem; keys : list Z; calls : nat; out : list msg }.
Definition say (w : world) (m : msg) : world := mkWorld (vol w) (sems w) (keys w) (calls w) (m :: out w).
Definition with_vol (w : world) (v : volume) : world := mkWorld v (sems w) (keys w) (Datatypes.S (calls w)) (out w).
Definition with_sems (w : world) (s : list sem) : world := mkWorld (vol w) s (keys w) (calls w) (out w).

Section Cmd.
(* What is in the name buffer (on the stack) when an operation starts, by its number. *)
Variable bufs : nat -> Z -> Z.

Definition unlink (w : world) (path : list Z) : res (world * crc) :=
  '(v, r) <- f_unlink (vol w) (path ++ [0]) (bufs (calls w)) ;; Ok (with_vol w v, Rc r).
Definition rename (w : world) (a b : list Z) : res (world * crc) :=
  '(v, r) <- f_rename (vol w) (a ++ [0]) (b ++ [0]) (bufs (calls w)) ;; Ok (with_vol w v, Rc r).
(* The attributes of file_info_t *)
Definition stat (w : world) (path : list Z) : res (world * prc * Z) :=
  '(r, x) <- f_stat (vol w) (path ++ [0]) (bufs (calls w)) ;;
  Ok (with_vol w (vol w), r, match x with Some (e, _, _) => Z.land (e 11) 63 | None => 0 end).

(* An open directory: obj.sclust, dptr / 32 or None if sect is 0, blk_ofs / 32, lockid *)
Record dirobj := mkDo { d_clu : Z; d_pos : option Z; d_blk : Z; d_lock : Z }.
(* f_opendir, fatfs/fatfs.c:4435-4446: the lock *)
Definition opendir (w : world) (path : list Z) : res (world * crc * dirobj) :=
  '(r, c) <- f_opendir (vol w) (path ++ [0]) (bufs (calls w)) ;;
  let w := with_vol w (vol w) in
  let d := mkDo c (Some 0) NONE 0 in
  match r with
  | R_OK =>
      if negb (c =? 0) then
        let '(s, id) := inc_share (sems w) (mkKey 1 c 0) 0 in
        Ok (with_sems w s, if id =? 0 then TooMany else Rc R_OK, mkDo c (Some 0) NONE id)
      else Ok (w, Rc R_OK, d)
  | r => Ok (w, Rc r, d)
  end.
(* f_closedir, fatfs/fatfs.c:4462-4485; its result is not used. *)
Definition closedir (w : world) (d : dirobj) : world :=
  if negb (d_lock d =? 0) then with_sems w (fst (dec_share (sems w) (d_lock d))) else w.
(* f_readdir, fatfs/fatfs.c:4492-4516: fname and fattrib, [] at the end *)
Definition readdir (w : world) (d : dirobj) : res (world * crc * dirobj * list Z * Z) :=
  let w' := with_vol w (vol w) in
  match d_pos d with
  | None => Ok (w', Rc R_OK, d, [], 0)
  | Some i =>
      let t := table (vol w) (d_clu d) in
      '(r, i, b, buf) <- dir_read t (bufs (calls w)) i (d_blk d) ;;
      match r with
      | D_OK =>
          '(fname, _) <- file_names (tab t i) b buf ;;
          let a := Z.land (tab t i 11) 63 in
          match dir_next t i false with
          | (_, D_OK) => Ok (w', Rc R_OK, mkDo (d_clu d) (Some (i + 1)) b (d_lock d), fname, a)
          | (_, D_NO_FILE) => Ok (w', Rc R_OK, mkDo (d_clu d) None b (d_lock d), fname, a)
          | (_, r) => Ok (w', Rc (of_drc r), d, fname, a)
          end
      | D_NO_FILE => Ok (w', Rc R_OK, mkDo (d_clu d) None b (d_lock d), [], 0)
      | r => Ok (w', Rc (of_drc r), d, [], 0)
      end
  end.

(* strcpy to the end of a buffer of n bytes that holds a *)
Definition append (n : Z) (a b : list Z) : res (list Z) :=
  if Z.of_nat (length a) + Z.of_nat (length b) + 1 <=? n then Ok (a ++ b) else Ub.

Definition note (w : world) (b : bool) (m : msg) : world := if b then say w m else w.
Definition is_ok (r : crc) : bool := match r with Rc R_OK => true | _ => false end.

(* The loop of remove_recursive, kernel/cmd/cmd_remove.c:77-102; rec removes a directory.
   base: dirname and the slash, FF_LFN_BUF: 255; last: what child holds behind it, None if
   nothing was stored there yet. *)
Fixpoint remove_loop (fuel : nat) (rec : world -> list Z -> res (world * crc)) (w : world) (d : dirobj) (base : list Z) (o : opts) (last : option (list Z))
  : res (world * crc * dirobj * option (list Z)) :=
  match fuel with
  | 0%nat => NoFuel
  | Datatypes.S fuel =>
      '(w, r, d, fname, a) <- readdir w d ;;
      if negb (is_ok r) then Ok (w, r, d, last)
      else
        match fname with
        | [] => Ok (w, r, d, last)
        | _ =>
            child <- append (Z.of_nat (length base) - 1 + 255 + 2) base fname ;;
            '(w, r) <-
              (if has a 16 then rec w child
               else
                 '(w, r) <- unlink w child ;;
                 Ok (if is_ok r then note w (verbose o) (Shown child) else say w (Failed child r), r)) ;;
            if negb (is_ok r) then Ok (w, r, d, Some fname) else remove_loop fuel rec w d base o (Some fname)
        end
  end.

(* remove_recursive, kernel/cmd/cmd_remove.c:52-115; fuel: levels, and entries in each *)
Fixpoint remove_recursive (fuel : nat) (o : opts) (w : world) (dirname : list Z) : res (world * crc) :=
  match fuel with
  | 0%nat => NoFuel
  | Datatypes.S fuel =>
      '(w, r) <- unlink w dirname ;;
      if is_ok r then Ok (note w (verbose o) (Shown dirname), r)
      else
        '(w, r, d) <- opendir w dirname ;;
        if negb (is_ok r) then Ok (say w (Failed dirname r), r)
        else
          let base := dirname ++ [47] in
          '(w, r, d, last) <- remove_loop fuel (remove_recursive fuel o) w d base o None ;;
          let w := closedir w d in
          if is_ok r then
            '(w, r) <- unlink w dirname ;;
            if negb (is_ok r) then Ok (say w (Failed dirname r), r)
            else if verbose o then match last with Some fname => Ok (say w (Shown (base ++ fname)), r) | None => Ub end
            else Ok (w, r)
          else Ok (w, r)
  end.

(* fpm_editline: the question and reply[0], 0 if there is no answer *)
Definition ask (w : world) (m : msg) : world * bool :=
  let k := hd 0 (keys w) in
  (mkWorld (vol w) (sems w) (tl (keys w)) (calls w) (m :: out w), (k =? 121) || (k =? 89)).

(* remove_file, kernel/cmd/cmd_remove.c:22-47 *)
Definition remove_file (o : opts) (w : world) (path : list Z) : res world :=
  let '(w, yes) := if force o then (w, true) else ask w (Ask false path) in
  if negb yes then Ok (say w Kept)
  else
    '(w, r) <- unlink w path ;;
    Ok (if negb (is_ok r) then note w (negb (force o)) (Failed path r) else note w (verbose o) (Shown path)).
(* remove_directory, kernel/cmd/cmd_remove.c:120-142 *)
Definition remove_directory (fuel : nat) (o : opts) (w : world) (path : list Z) : res world :=
  if negb (recursive o) then Ok (note w (negb (force o)) (NeedsR path))
  else
    let '(w, yes) := ask w (Ask true path) in
    if negb yes then Ok (say w Kept) else '(w, _) <- remove_recursive fuel o w path ;; Ok w.
(* remove, kernel/cmd/cmd_remove.c:147-164 *)
Definition remove (fuel : nat) (o : opts) (w : world) (path : list Z) : res world :=
  '(w, r, a) <- stat w path ;;
  match r with
  | R_OK => if has a 16 then remove_directory fuel o w path else remove_file o w path
  | r => Ok (note w (negb (force o)) (Failed path (Rc r)))
  end.

(* The arguments, as fpm_getopt gives them (GetoptModel) *)
Inductive arg := Flag (c : Z) | Arg (path : list Z) | BadOpt.
(* fpm_cmd_remove, kernel/cmd/cmd_remove.c:166-218; n: argcount; the empty lines are left
   out. *)
Fixpoint cmd_remove (fuel : nat) (o : opts) (n : nat) (w : world) (args : list arg) : res world :=
  match args with
  | [] => Ok (match n with 0%nat => say w Usage | _ => w end)
  | Arg path :: args => w <- remove fuel o w path ;; cmd_remove fuel o (Datatypes.S n) w args
  | BadOpt :: _ => Ok w
  | Flag c :: args =>
      if c =? 104 then Ok (say w Usage)
      else if c =? 102 then cmd_remove fuel (mkOpts true (recursive o) (verbose o)) n w args
      else if c =? 114 then cmd_remove fuel (mkOpts (force o) true (verbose o)) n w args
      else if c =? 118 then cmd_remove fuel (mkOpts (force o) (recursive o) true) n w args
      else cmd_remove fuel o n w args
  end.
Definition fpm_cmd_remove (fuel : nat) (w : world) (args : list arg) : res world := cmd_remove fuel (mkOpts false false false) 0 w args.

(* rename_file, kernel/cmd/cmd_rename.c:21-59 *)
Definition rename_file (o : opts) (w : world) (source destination : list Z) : res world :=
  let go w :=
    '(w, r) <- rename w source destination ;;
    Ok (if negb (is_ok r) then say w (Failed2 source destination r) else note w (verbose o) (Shown2 source destination)) in
  if force o then go w
  else
    '(w, r, _) <- stat w destination ;;
    match r with
    | R_OK =>
        '(w, r, _) <- stat w source ;;
        match r with
        | R_OK => let '(w, yes) := ask w (Ask false destination) in if negb yes then Ok (say w Kept) else go w
        | r => Ok (say w (Failed source (Rc r)))
        end
    | _ => go w
    end.

(* The last component of a path, kernel/cmd/cmd_rename.c:83-87, with slashes behind it *)
Fixpoint drop_while (p : Z -> bool) (l : list Z) : list Z :=
  match l with [] => [] | c :: t => if p c then drop_while p t else l end.
Fixpoint take_while (p : Z -> bool) (l : list Z) : list Z :=
  match l with [] => [] | c :: t => if p c then c :: take_while p t else [] end.
Definition last_part (s : list Z) : list Z :=
  let b := rev s in
  let slash c := c =? 47 in
  rev (take_while slash b ++ take_while (fun c => negb (slash c)) (drop_while slash b)).

(* move_files_to_directory, kernel/cmd/cmd_rename.c:64-92; the buffer has
   baselen + FF_LFN_BUF + 2 bytes. *)
Fixpoint move_loop (o : opts) (w : world) (n : Z) (base : list Z) (sources : list (list Z)) : res world :=
  match sources with
  | [] => Ok w
  | s :: r =>
      destination <- append n base (last_part s) ;;
      w <- rename_file o w s destination ;;
      move_loop o w n base r
  end.
Definition slashed (dir : list Z) : list Z := match rev dir with 47 :: _ => dir | _ => dir ++ [47] end.
Definition move_files_to_directory (o : opts) (w : world) (sources : list (list Z)) (dir : list Z) : res world :=
  move_loop o w (Z.of_nat (length dir) + 255 + 2) (slashed dir) sources.

(* fpm_cmd_rename, kernel/cmd/cmd_rename.c:94-171, behind the options; args: the paths *)
Definition fpm_cmd_rename (o : opts) (w : world) (args : list (list Z)) : res world :=
  match rev args with
  | [] | [_] => Ok (say w Usage)
  | destination :: sources =>
      let sources := rev sources in
      if existsb (fun c => c =? 58) destination then Ok (say w (Across destination))
      else
        '(w, r, a) <- stat w destination ;;
        let '(r, a) := match r with R_INVALID_NAME => (R_OK, 16) | r => (r, a) end in
        if (match r with R_OK => false | _ => true end) || negb (has a 16) then
          match sources with
          | [s] => rename_file o w s destination
          | _ => Ok (say w (NotDir destination))
          end
        else move_files_to_directory o w sources destination
  end.
End Cmd.
