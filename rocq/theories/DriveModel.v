(* The commands format, mount (the table), free and vol (sizes and the speed test):
   kernel/cmd/cmd_format.c, cmd_mount.c, cmd_vol.c and apps/free/free.c.  unsigned long has
   32 bits.  Strings are lists of bytes without their NUL. *)
From Coq Require Import String Ascii.
From Verif Require Import Base Arr ExecModel GetoptModel DirModel EditModel FpatModel CliModel.
Open Scope Z_scope.
Definition crlf : list Z := [13; 10].

(* --- format --- *)

(* disk_name, pico/diskio.c:38 *)
Definition drive_name (d : Z) : list Z := if d =? 0 then str "flash" else str "sd".
(* FM_FAT | FM_SFD and FM_FAT32, include/fpm/fs.h *)
Definition disk_fmt : list Z := [9; 2].
(* disk_info_t: product name and size in bytes *)
Record disk := Disk { product : list Z; num_bytes : Z }.
(* size in Mbytes with one decimal, cmd_format.c:47-49, cmd_vol.c:52-54; num_bytes has 64 bits *)
Definition mbytes (n : Z) : list Z := digits (n / 1024 / 1024 mod 2 ^ 32) ++ [46] ++ digits ((n * 10) mod 2 ^ 64 / 1024 / 1024 mod 10).
Definition question (d : Z) (i : disk) : list Z :=
  str "Do you really want to format drive " ++ drive_name d ++ [63] ++ crlf ++
  str "Disk '" ++ product i ++ str "', size " ++ mbytes (num_bytes i) ++ str " Mbytes." ++ crlf ++
  str "All data on the disk will be lost." ++ crlf.
Definition prompt : list Z := str "Confirm? y/n [n] ".

(* What the command did: the output, the calls of f_mkfs (drive name and format), and
   whether it ended (or still waits for keys). *)
Record done := Done { shown : list Z; made : list (list Z * Z); over : bool }.
Section Format.
(* The current drive; disk_identify; the error text of f_mkfs, None for success; the
   former contents of the stack: reply and next_line *)
Variables (curr : Z) (identify : Z -> option disk) (mkfs : list Z -> Z -> option (list Z)) (reply junk : list Z).

(* find_drive_unit and format_drive, cmd_format.c:13-67 *)
Definition format_drive (name keys : list Z) : res done :=
  '(unit, rest) <- get_ldnumber curr (name ++ [0]) ;;
  c <- deref rest ;;
  if (unit <? 0) || negb (c =? 0) then Ok (Done (name ++ str ": Invalid drive name" ++ crlf) [] true)
  else
    match identify unit with
    | None => Ok (Done [] [] true)
    | Some i =>
        '(s, o, fin) <- editline reply 64 true (prompt ++ [0]) junk None keys ;;
        let o := question unit i ++ o in
        if negb fin then Ok (Done o [] false)
        else
          r <- rd (e_buf s) 0 ;;
          let o := o ++ crlf in
          if negb (r =? 121) && negb (r =? 89) then Ok (Done (o ++ str "Not formatted." ++ crlf) [] true)
          else
            let f := nth (Z.to_nat unit) disk_fmt 0 in
            match mkfs name f with
            | Some e => Ok (Done (o ++ name ++ str ": " ++ e ++ crlf) [(name, f)] true)
            | None => Ok (Done (o ++ str "Disk " ++ drive_name unit ++ str " formatted." ++ crlf) [(name, f)] true)
            end
    end.

(* fpm_cmd_format, cmd_format.c:69-108 *)
Definition format_usage : list Z := str "Usage:" ++ crlf ++ str "    format sd:" ++ crlf ++ str "    format flash:" ++ crlf ++ [10].
(* the name given; what was written *)
Record fst_ := Fst { given : option (list Z); wrote : list Z }.
Definition format_round (s : fst_) (ret : Z) (arg : option (list Z)) : res (round fst_) :=
  if ret =? 1 then match given s with Some _ => Ok (Stop (Fst (given s) format_usage)) | None => Ok (Go (Fst arg [])) end
  else if ret =? 63 then Ok (Stop (Fst (given s) crlf))
  else if ret =? 104 then Ok (Stop (Fst (given s) format_usage))
  else Ok (Go s).
Definition cmd_format (fuel : nat) (argv : list (list Z)) (keys : list Z) : res done :=
  r <- options fuel [104] format_round argv (Fst None []) opt0 ;;
  match r with
  | Stop s => Ok (Done (wrote s) [] true)
  | Go s =>
      match given s with
      | None => Ok (Done format_usage [] true)
      | Some name =>
          d <- format_drive name keys ;;
          Ok (Done (shown d ++ if over d then crlf else []) (made d) (over d))
      end
  end.
End Format.

(* --- mount --- *)

(* blk_to_kbytes, kernel/cmd/cmd_mount.c:14-23 *)
Definition blk_to_kbytes (num bsize : Z) : Z :=
  if bsize =? 0 then num else if bsize <? 1024 then num / (1024 / bsize) else (num * (bsize / 1024)) mod 2 ^ 32.
(* fs_info_t, include/fpm/fs.h:74-81 *)
Record fsinfo := Info { f_type : Z; f_bsize : Z; f_blocks : Z; f_bfree : Z; f_bavail : Z }.
Definition type_name (t : Z) : list Z :=
  match t with 1 => str "FAT-12" | 2 => str "FAT-16" | 3 => str "FAT-32" | 4 => str " exFAT" | _ => str "Unknwn" end.
(* show, kernel/cmd/cmd_mount.c:55-91; None: f_statfs failed *)
Definition show (i : Z) (info : option fsinfo) : list Z :=
  pad_left 32 5 (drive_name i) ++ str ":  " ++
  match info with
  | None => str "   ---" ++ crlf
  | Some f =>
      let used := (f_blocks f - f_bfree f) mod 2 ^ 32 in
      let avail := (f_bavail f + used) mod 2 ^ 32 in
      type_name (f_type f) ++
      [32] ++ pad_left 32 10 (digits (blk_to_kbytes (f_blocks f) (f_bsize f))) ++
      [32] ++ pad_left 32 9 (digits (blk_to_kbytes used (f_bsize f))) ++
      [32] ++ pad_left 32 9 (digits (blk_to_kbytes (f_bavail f) (f_bsize f))) ++
      (if avail =? 0 then str "   100%"
       else [32] ++ pad_left 32 5 (digits ((((used * 200 + avail) mod 2 ^ 64) / avail / 2) mod 2 ^ 32)) ++ [37]) ++ crlf
  end.

(* --- free --- *)

(* print_value, apps/free/free.c:6-13; %03u *)
Definition print_value (name : list Z) (size : Z) : list Z :=
  name ++ str ": " ++ (if size <? 1000 then digits size else digits (size / 1000) ++ [44] ++ pad_left 48 3 (digits (size mod 1000))) ++ str " bytes" ++ crlf.

(* --- vol -t --- *)

(* The calls of test_speed. *)
Inductive call := COpen | CWrite | CRewind | CRead | CClose | CUnlink.
(* What happened: the calls, the file still open, the file still there, the message *)
Inductive report := Small | Cannot | WriteError (n : Z) | RewindError | ReadError (n : Z) | UnlinkError | Tested (mb : Z).
Section Speed.
(* whether the n-th call fails (or is short) *)
Variable bad : nat -> bool.
(* the two loops, cmd_vol.c:151-158 and 171-178: the number of calls made, and where it failed *)
Fixpoint blocks (c : call) (left : nat) (n : Z) (k : nat) : list call * option Z * nat :=
  match left with
  | O => ([], None, k)
  | S l => if bad k then ([c], Some n, S k) else let '(cs, r, k') := blocks c l (n + 1) (S k) in (c :: cs, r, k')
  end.
(* test_speed, cmd_vol.c:88-189, after the checks of the drive; f_bavail * f_bsize has 64
   bits; times and their output left out.  The calls and the report. *)
Definition test_speed (f : fsinfo) : list call * report :=
  let free := (f_bavail f * f_bsize f / 1024 / 1024) mod 2 ^ 32 in
  if free <? 1 then ([], Small)
  else
    let size := if free <? 8 then free else 8 in
    let n := Z.to_nat (size * 1024 / 4) in
    if bad 0 then ([COpen], Cannot)
    else
      let '(ws, r, k) := blocks CWrite n 0 1 in
      match r with
      | Some at_ => (COpen :: ws, WriteError at_)
      | None =>
          if bad k then (COpen :: ws ++ [CRewind], RewindError)
          else
            let '(rs, r, k) := blocks CRead n 0 (S k) in
            match r with
            | Some at_ => (COpen :: ws ++ CRewind :: rs, ReadError at_)
            | None => (COpen :: ws ++ CRewind :: rs ++ [CClose; CUnlink], if bad (S k) then UnlinkError else Tested size)
            end
      end.
End Speed.
