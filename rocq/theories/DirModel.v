(* Model of kernel/cmd/cmd_dir.c: sorting and printing a list of files.  The
   linked list is a list; node addresses play no role.  fpm_printf formats as
   in C; fpm_puts prints names as they are, which holds for UTF-8 of the basic
   plane (Utf8Proof.puts_text). *)
From Coq Require Import String.
From Verif Require Import Base Arr DotwModel Utf8Model ExecModel.
Open Scope Z_scope.

(* list_item_t, kernel/cmd/cmd_dir.c:30-38; name without its terminator. *)
Record item := Item {
  i_nbytes : Z;     (* uint64_t *)
  i_mtime : Z;      (* uint32_t *)
  i_namelen : Z;    (* characters in name *)
  i_attrib : Z;
  i_name : list Z }.

(* options_t, kernel/cmd/cmd_dir.c:13-25, what is used here. *)
Record options := Options {
  o_termwidth : Z;
  o_showhidden : bool;
  o_longform : bool;
  o_reversesort : bool;
  o_singlecol : bool;
  o_timesort : bool;
  o_type : bool;
  o_toplevel : bool }.

(* strcmp on bytes: only the sign counts. *)
Fixpoint strcmp (a b : list Z) : Z :=
  match a, b with
  | [], [] => 0
  | [], _ :: _ => -1
  | _ :: _, [] => 1
  | x :: a', y :: b' => if x =? y then strcmp a' b' else x - y
  end.

(* (int)x of a uint32_t. *)
Definition to_int (x : Z) : Z := if x <? 2 ^ 31 then x else x - 2 ^ 32.

(* compare_list_items, kernel/cmd/cmd_dir.c:129-144; int overflow is undefined. *)
Definition compare (o : options) (a b : item) : res Z :=
  if negb (o_reversesort o) then
    if o_timesort o && negb (i_mtime a =? i_mtime b) then int_of (to_int (i_mtime b) - to_int (i_mtime a))
    else Ok (strcmp (i_name a) (i_name b))
  else
    if o_timesort o && negb (i_mtime a =? i_mtime b) then int_of (to_int (i_mtime a) - to_int (i_mtime b))
    else Ok (strcmp (i_name b) (i_name a)).

(* chain_merge, kernel/cmd/cmd_dir.c:149-164 *)
Fixpoint merge (o : options) (a : list item) : list item -> res (list item) :=
  fix mb (b : list item) : res (list item) :=
    match a, b with
    | [], _ => Ok b
    | _, [] => Ok a
    | x :: a', y :: b' =>
        c <- compare o x y ;;
        if c <? 0 then r <- merge o a' b ;; Ok (x :: r) else r <- mb b' ;; Ok (y :: r)
    end.

(* The loop of chain_mid_point, kernel/cmd/cmd_dir.c:176-183: how often slow
   moved. *)
Fixpoint mid_loop (fast : list item) (slow : nat) : nat :=
  match fast with
  | _ :: f1 => match f1 with
               | [] => slow
               | _ :: f2 => match f2 with [] => slow | _ => mid_loop f2 (S slow) end
               end
  | [] => slow
  end.

(* chain_sort, kernel/cmd/cmd_dir.c:190-209 *)
Fixpoint sort (fuel : nat) (o : options) (l : list item) : res (list item) :=
  match fuel with
  | O => NoFuel
  | S k =>
      match l with
      | [] | [_] => Ok l
      | _ =>
          let m := S (mid_loop l 0) in
          a <- sort k o (firstn m l) ;; b <- sort k o (skipn m l) ;; merge o a b
      end
  end.

Definition AM_RDO : Z := 1.
Definition AM_HID : Z := 2.
Definition AM_SYS : Z := 4.
Definition AM_DIR : Z := 16.
Definition AM_ARC : Z := 32.
Definition has (attrib m : Z) : bool := negb (Z.land attrib m =? 0).

(* --- printf --- *)

(* %u: decimal digits, most significant first; 20 digits hold every 64-bit
   number. *)
Fixpoint digits_loop (fuel : nat) (n : Z) (acc : list Z) : list Z :=
  match fuel with
  | O => acc
  | S k => let acc' := (48 + n mod 10) :: acc in if n / 10 =? 0 then acc' else digits_loop k (n / 10) acc'
  end.
Definition digits (n : Z) : list Z := digits_loop 20 n [].

Definition pad_left (c : Z) (w : Z) (s : list Z) : list Z := repeat c (Z.to_nat (w - Z.of_nat (length s))) ++ s.
Definition pad_right (c : Z) (w : Z) (s : list Z) : list Z := s ++ repeat c (Z.to_nat (w - Z.of_nat (length s))).
(* %*u and %*s: the width is an int, negative for left adjustment. *)
Definition fmt_width (w : Z) (s : list Z) : list Z :=
  if to_int (w mod 2 ^ 32) <? 0 then pad_right 32 (- to_int (w mod 2 ^ 32)) s else pad_left 32 (to_int (w mod 2 ^ 32)) s.

Definition crlf : list Z := [13; 10].

(* print_type, kernel/cmd/cmd_dir.c:237-248; there are no links. *)
Definition print_type (i : item) : list Z := if has (i_attrib i) AM_DIR then [47] else [].

(* print_filename, kernel/cmd/cmd_dir.c:254-261: output and characters. *)
Definition print_filename (o : options) (i : item) : list Z * Z :=
  if o_type o then (i_name i ++ print_type i, i_namelen i + Z.of_nat (length (print_type i)))
  else (i_name i, i_namelen i).

(* print_attrib, kernel/cmd/cmd_dir.c:266-273 *)
Definition print_attrib (a : Z) : list Z :=
  [if has a AM_ARC then 97 else 45; if has a AM_DIR then 100 else 45; if has a AM_SYS then 115 else 45;
   if has a AM_HID then 104 else 45; if has a AM_RDO then 114 else 45].

(* print_time, kernel/cmd/cmd_dir.c:278-300; bit fields from the low end. *)
Definition print_time (t : Z) : list Z :=
  let minute := t / 2 ^ 5 mod 2 ^ 6 in
  let hour := t / 2 ^ 11 mod 2 ^ 5 in
  let day := t / 2 ^ 16 mod 2 ^ 5 in
  let month := t / 2 ^ 21 mod 2 ^ 4 in
  let year := t / 2 ^ 25 mod 2 ^ 7 in
  pad_left 32 4 (digits (year + 1980)) ++ [47] ++ digits month ++ [47] ++ digits day ++ [32] ++
  (if month <? 10 then [32] else []) ++ (if day <? 10 then [32] else []) ++
  pad_left 32 2 (digits hour) ++ [58] ++ pad_left 48 2 (digits minute) ++ [32; 32].

(* The first loop of print_size, kernel/cmd/cmd_dir.c:333-338; 64-bit, width
   32-bit arithmetic. *)
Fixpoint size_split (fuel : nat) (n n2 scale width : Z) : res (Z * Z * Z * Z) :=
  match fuel with
  | O => NoFuel
  | S k =>
      if n <? 1000 then Ok (n, n2, scale, width)
      else size_split k (n / 1000) ((n2 + scale * (n mod 1000)) mod 2 ^ 64) ((scale * 1000) mod 2 ^ 64) ((width - 4) mod 2 ^ 32)
  end.
(* The second, :340-345. *)
Fixpoint size_groups (fuel : nat) (n2 scale : Z) : res (list Z) :=
  match fuel with
  | O => NoFuel
  | S k =>
      if scale =? 1 then Ok []
      else
        let s := scale / 1000 in
        if s =? 0 then Ub else
        r <- size_groups k (n2 mod s) s ;;
        Ok ([44] ++ pad_left 48 3 (digits ((n2 / s) mod 2 ^ 32)) ++ r)
  end.

(* print_size, kernel/cmd/cmd_dir.c:329-346 *)
Definition print_size (n width : Z) : res (list Z) :=
  '(n, n2, scale, width) <- size_split 8 n 0 1 width ;;
  r <- size_groups 8 n2 scale ;;
  Ok (fmt_width width (digits n) ++ r).

(* size_len, kernel/cmd/cmd_dir.c:351-360 *)
Fixpoint size_len (fuel : nat) (n len : Z) : res Z :=
  match fuel with
  | O => NoFuel
  | S k => if n <? 1000 then Ok (len + (if 100 <=? n then 3 else if 10 <=? n then 2 else 1)) else size_len k (n / 1000) (len + 4)
  end.

(* print_single_column, kernel/cmd/cmd_dir.c:314-324, on the items to print. *)
Definition print_single_column (o : options) (l : list item) : list Z :=
  flat_map (fun i => fst (print_filename o i) ++ crlf) l.

(* "Total %ju kbytes" *)
Definition print_total (o : options) (kbytes : Z) : list Z :=
  if negb (o_toplevel o) && o_longform o then str "Total " ++ digits kbytes ++ str " kbytes" ++ crlf else [].

(* One line of print_long, kernel/cmd/cmd_dir.c:374-394 *)
Definition long_line (o : options) (width : Z) (i : item) : res (list Z) :=
  s <- (if has (i_attrib i) AM_DIR then Ok (fmt_width width [45]) else print_size (i_nbytes i) width) ;;
  Ok (print_attrib (i_attrib i) ++ [32; 32] ++ s ++ [32; 32] ++ print_time (i_mtime i) ++ i_name i ++
      (if o_type o then print_type i else []) ++ crlf).

Fixpoint map_res {A B} (f : A -> res B) (l : list A) : res (list B) :=
  match l with [] => Ok [] | x :: l' => y <- f x ;; r <- map_res f l' ;; Ok (y :: r) end.

(* print_long, kernel/cmd/cmd_dir.c:365-395 *)
Definition print_long (o : options) (l : list item) (kbytes maxsize : Z) : res (list Z) :=
  w <- size_len 8 maxsize 0 ;;
  ls <- map_res (long_line o w) l ;;
  Ok (print_total o kbytes ++ List.concat ls).

(* A row of print_columnized, kernel/cmd/cmd_dir.c:442-452: [n] columns left,
   base, char_count, endcol. *)
Fixpoint print_row (n : nat) (o : options) (arr : list item) (numrows base : nat) (colwidth count endcol : Z) : res (list Z) :=
  match n with
  | O => Ok []
  | S k =>
      i <- (match nth_error arr base with Some i => Ok i | None => Ub end) ;;
      let '(s, c) := print_filename o i in
      let count := count + c in
      let base := (base + numrows)%nat in
      if (length arr <=? base)%nat then Ok s
      else
        let fill := repeat 32 (Z.to_nat (endcol - count)) in
        r <- print_row k o arr numrows base colwidth (Z.max count endcol) (endcol + colwidth) ;;
        Ok (s ++ fill ++ r)
  end.

Fixpoint print_rows (n row : nat) (o : options) (arr : list item) (numcols numrows : nat) (colwidth : Z) : res (list Z) :=
  match n with
  | O => Ok []
  | S k =>
      s <- print_row numcols o arr numrows row colwidth 0 colwidth ;;
      r <- print_rows k (S row) o arr numcols numrows colwidth ;;
      Ok (s ++ crlf ++ r)
  end.

(* print_columnized, kernel/cmd/cmd_dir.c:400-455; [arr]: the items to print. *)
Definition print_columnized (o : options) (arr : list item) (maxlen kbytes : Z) : res (list Z) :=
  let colwidth := ((if o_type o then maxlen + 1 else maxlen) + 2) mod 2 ^ 32 in
  if o_termwidth o <? (2 * colwidth) mod 2 ^ 32 then Ok (print_single_column o arr)
  else if colwidth =? 0 then Ub
  else
    let numcols := Z.to_nat (o_termwidth o / colwidth) in
    let numrows := (length arr / numcols + (if length arr mod numcols =? 0 then 0 else 1))%nat in
    r <- print_rows numrows 0 o arr numcols numrows colwidth ;;
    Ok (print_total o kbytes ++ r).

(* kernel/cmd/cmd_dir.c:478-490 *)
Definition printable (o : options) (i : item) : bool :=
  negb (has (i_attrib i) AM_HID && negb (o_showhidden o)) && negb (has (i_attrib i) AM_DIR && o_toplevel o).

Definition maxlen_of (l : list item) : Z := fold_left (fun m i => Z.max m (i_namelen i)) l 0.
Definition maxsize_of (l : list item) : Z := fold_left (fun m i => Z.max m (i_nbytes i)) l 0.
Definition kbytes_of (l : list item) : Z := fold_left (fun s i => (s + (i_nbytes i + 1023) mod 2 ^ 64 / 1024) mod 2 ^ 64) l 0.

(* show_files, kernel/cmd/cmd_dir.c:460-515: output, and any_output. *)
Definition show_files (o : options) (l : list item) : res (list Z * bool) :=
  l <- sort (S (length l)) o l ;;
  let arr := filter (printable o) l in
  match arr with
  | [] => Ok ([], false)
  | _ =>
      r <- (if o_singlecol o then Ok (print_single_column o arr)
            else if o_longform o then print_long o arr (kbytes_of arr) (maxsize_of arr)
            else print_columnized o arr (maxlen_of arr) (kbytes_of arr)) ;;
      Ok (r, true)
  end.

(* list_append_name, kernel/cmd/cmd_dir.c:107-123: f_stat fills in the
   information or answers FR_INVALID_NAME or another error. *)
Inductive stat_result := StatOk (i : item) | StatInvalidName | StatError.
(* sizeof(info.fname), include/fpm/fs.h:60-68 *)
Definition FNAME : nat := 256.
Definition list_append_name (stat : list Z -> stat_result) (l : list item) (name : list Z) : res (list item) :=
  match stat name with
  | StatOk i => Ok (l ++ [i])
  | StatInvalidName =>
      f <- strcpy (repeat 0 FNAME) name ;;
      n <- utf8len (name ++ [0]) ;;
      Ok (l ++ [Item 0 0 (Z.of_nat n) AM_DIR name])
  | StatError => Ok l
  end.

(* --- directories --- *)

Inductive event := Say (s : list Z) | Opendir (path : list Z) | OpendirFailed (path : list Z) | StatFailed (name : list Z).

(* path in show_directories, kernel/cmd/cmd_dir.c:526-538: an array of
   strlen(parent) + 1 + 255 + 1 bytes. *)
Definition dir_path (parent name : list Z) : res (list Z) :=
  let offset := match parent with [] => 0%nat | _ => S (length parent) end in
  if (length parent + 257 <? offset + length name + 1)%nat then Ub
  else Ok (match parent with [] => name | _ => parent ++ [47] ++ name end).

(* The loop of show_directories, kernel/cmd/cmd_dir.c:535-552: [sd] is show_dir,
   which clears toplevel; [many]: list->head->next != 0. *)
Fixpoint each_dir (sd : bool -> list Z -> res (list event * bool)) (many : bool) (parent : list Z) (top any : bool) (l : list item)
    : res (list event * bool) :=
  match l with
  | [] => Ok ([], any)
  | i :: l' =>
      if has (i_attrib i) AM_DIR then
        path <- dir_path parent (i_name i) ;;
        let '(h, any) := if any then (crlf ++ path ++ [58] ++ crlf, true)
                         else if negb top || many then (path ++ [58] ++ crlf, true) else ([], false) in
        '(e, any) <- sd any path ;;
        '(r, any) <- each_dir sd many parent false any l' ;;
        Ok (Say h :: e ++ r, any)
      else each_dir sd many parent top any l'
  end.
Definition show_directories (sd : bool -> list Z -> res (list event * bool)) (parent : list Z) (top any : bool) (l : list item) :=
  each_dir sd (match l with _ :: _ :: _ => true | _ => false end) parent top any l.

Definition set_top (o : options) (b : bool) : options :=
  Options (o_termwidth o) (o_showhidden o) (o_longform o) (o_reversesort o) (o_singlecol o) (o_timesort o) (o_type o) b.

(* scan_directory and show_dir, kernel/cmd/cmd_dir.c:558-599: [ent] gives the
   contents of a directory.  The list is sorted in place by show_files. *)
Fixpoint show_dir (fuel : nat) (ent : list Z -> option (list item)) (recursive : bool) (o : options) (any : bool) (path : list Z)
    : res (list event * bool) :=
  match fuel with
  | O => NoFuel
  | S k =>
      let '(e0, l) := match ent path with Some l => (Opendir path, l) | None => (OpendirFailed path, []) end in
      let o := set_top o false in
      '(s, any1) <- show_files o l ;;
      let any := any || any1 in
      l <- sort (S (length l)) o l ;;
      '(e, any) <- (if recursive then show_directories (show_dir k ent recursive o) path false any l else Ok ([], any)) ;;
      Ok (e0 :: Say s :: e, any)
  end.

Fixpoint append_names (stat : list Z -> stat_result) (l : list item) (names : list (list Z)) : res (list event * list item) :=
  match names with
  | [] => Ok ([], l)
  | n :: names' =>
      l <- list_append_name stat l n ;;
      '(e, l) <- append_names stat l names' ;;
      Ok (match stat n with StatError => StatFailed n :: e | _ => e end, l)
  end.

(* fpm_cmd_dir after the options, kernel/cmd/cmd_dir.c:631-691; options may not
   stand behind names here. *)
Definition cmd_dir (fuel : nat) (stat : list Z -> stat_result) (ent : list Z -> option (list item)) (recursive : bool) (o : options)
    (names : list (list Z)) : res (list event) :=
  '(e, l) <- append_names stat [] names ;;
  l <- (match names with [] => list_append_name stat l (str ".") | _ => Ok l end) ;;
  match l with
  | [] => Ok e
  | _ =>
      let o := set_top o true in
      '(s, any) <- show_files o l ;;
      l <- sort (S (length l)) o l ;;
      '(r, any) <- show_directories (show_dir fuel ent recursive o) [] true any l ;;
      Ok (e ++ Say s :: r ++ (if any then [Say crlf] else []))
  end.
