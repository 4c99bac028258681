(* Model of the search for files with wildcards: f_findfirst and f_findnext of fatfs/fatfs.c;
   pattern_match is in FpatModel. *)
From Verif Require FpatModel.
From Verif Require Import Base FutfModel LfnModel FdirModel FnameModel FpathModel.
Open Scope Z_scope.

(* f_readdir, fatfs/fatfs.c:4492-4516, on the table d at entry pos (None: sect is 0): result,
   new pos and blk_ofs, fname ([] at the end) and the entry.  bufs: the name buffer by entry. *)
Definition read_step (d : dirt) (bufs : Z -> Z -> Z) (pos : option Z) (blk : Z) : res (drc * option Z * Z * list Z * (Z -> Z)) :=
  match pos with
  | None => Ok (D_OK, None, blk, [], fun _ => 0)
  | Some i =>
      '(r, i, blk, buf) <- dir_read d (bufs i) i blk ;;
      match r with
      | D_OK =>
          '(fname, _) <- file_names (tab d i) blk buf ;;
          match dir_next d i false with
          | (_, D_OK) => Ok (D_OK, Some (i + 1), blk, fname, tab d i)
          | (_, D_NO_FILE) => Ok (D_OK, None, blk, fname, tab d i)
          | (_, r) => Ok (r, Some i, blk, fname, tab d i)
          end
      | D_NO_FILE => Ok (D_OK, None, blk, [], fun _ => 0)
      | r => Ok (r, Some i, blk, [], fun _ => 0)
      end
  end.
(* f_findnext, fatfs/fatfs.c:4522-4539; FF_USE_FIND is 1 *)
Fixpoint find_next (fuel : nat) (d : dirt) (bufs : Z -> Z -> Z) (pat : list Z) (pos : option Z) (blk : Z) : res (drc * option Z * Z * list Z * (Z -> Z)) :=
  match fuel with
  | O => NoFuel
  | S fuel =>
      '(r, pos, blk, fname, e) <- read_step d bufs pos blk ;;
      match r, fname with
      | D_OK, _ :: _ =>
          m <- FpatModel.find_match pat (fname ++ [0]) ;;
          if (m : bool) then Ok (r, pos, blk, fname, e) else find_next fuel d bufs pat pos blk
      | _, _ => Ok (r, pos, blk, fname, e)
      end
  end.
(* f_findnext until it fails or finds no more, with the last result; n: calls at most *)
Fixpoint find_rest (n fuel : nat) (d : dirt) (bufs : Z -> Z -> Z) (pat : list Z) (pos : option Z) (blk : Z) : res (drc * list (list Z * (Z -> Z))) :=
  match n with
  | O => NoFuel
  | S n =>
      '(r, pos, blk, fname, e) <- find_next fuel d bufs pat pos blk ;;
      match r, fname with
      | D_OK, _ :: _ => '(r, rest) <- find_rest n fuel d bufs pat pos blk ;; Ok (r, (fname, e) :: rest)
      | _, _ => Ok (r, [])
      end
  end.
(* f_findfirst, fatfs/fatfs.c:4545-4558, and f_findnext until it fails or finds no more; the
   table of open files is left out.  The result of f_opendir or of the last search, and the
   names and entries found. *)
Definition find_all (v : volume) (path pat : list Z) (buf : Z -> Z) (bufs : Z -> Z -> Z) : res (prc * list (list Z * (Z -> Z))) :=
  '(r, c) <- f_opendir v path buf ;;
  match r with
  | R_OK =>
      let d := table v c in
      let n := S (Z.to_nat (cap d)) in
      '(r, l) <- find_rest n n d bufs pat (Some 0) NONE ;; Ok (of_drc r, l)
  | r => Ok (r, [])
  end.
