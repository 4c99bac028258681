(* Model of FatFs name patterns and drive prefixes: get_achar, pattern_match and
   get_ldnumber of fatfs/fatfs.c.  A pointer into a string is the list of bytes
   from it on. *)
From Verif Require Import Base FutfModel.
Open Scope Z_scope.

(* get_achar, fatfs/fatfs.c:2496-2509 *)
Definition get_achar (p : list Z) : res (Z * list Z) :=
  '(o, p') <- tchar2uni p ;;
  let chr := match o with None => 0 | Some c => c end in
  u <- ff_wtoupper chr ;;
  Ok (u, p').

(* *p *)
Definition deref (p : list Z) : res Z := match p with [] => Ub | b :: _ => Ok b end.
Definition wild (b : Z) : bool := (b =? 63) || (b =? 42).

(* The loop over a wildcard term, fatfs/fatfs.c:2540-2546: sk and the pointer
   behind it. *)
Fixpoint term (fuel : nat) (p : list Z) (sk : Z) : res (Z * list Z) :=
  match fuel with
  | O => NoFuel
  | S k =>
      '(b, p) <- next p ;;
      let sk := if b =? 63 then w32 (sk + 1) else Z.lor sk 256 in
      b <- deref p ;;
      if wild b then term k p sk else Ok (sk, p)
  end.

(* Skipping name characters, fatfs/fatfs.c:2524-2528; None: too few.  n = skip & 0xff *)
Fixpoint preskip (n : nat) (nam : list Z) : res (option (list Z)) :=
  match n with
  | O => Ok (Some nam)
  | S k => '(c, nam) <- get_achar nam ;; if c =? 0 then Ok None else preskip k nam
  end.

(* How the for loop ends: return with a result, or break with nchr. *)
Inductive ending := Return (b : bool) | Break (nchr : Z).

(* The for loop, fatfs/fatfs.c:2535-2560; [rec] is the recursive call, None when
   recur is zero. *)
Fixpoint inner (rec : option (list Z -> list Z -> Z -> res bool)) (fuel : nat) (pptr nptr : list Z) : res ending :=
  match fuel with
  | O => NoFuel
  | S k =>
      b <- deref pptr ;;
      if wild b then
        match rec with
        | None => Ok (Return false)
        | Some f =>
            '(sk, p) <- term (length pptr) pptr 0 ;;
            m <- f p nptr sk ;;
            if m then Ok (Return true) else nchr <- deref nptr ;; Ok (Break nchr)
        end
      else
        '(pchr, pptr) <- get_achar pptr ;;
        '(nchr, nptr) <- get_achar nptr ;;
        if negb (pchr =? nchr) then Ok (Break nchr)
        else if pchr =? 0 then Ok (Return true)
        else inner rec k pptr nptr
  end.

(* The do-while loop, fatfs/fatfs.c:2532-2562 *)
Fixpoint outer (rec : option (list Z -> list Z -> Z -> res bool)) (fuel : nat) (pat nam : list Z) (skip : Z) : res bool :=
  match fuel with
  | O => NoFuel
  | S k =>
      e <- inner rec (S (length pat)) pat nam ;;
      match e with
      | Return b => Ok b
      | Break nchr =>
          '(_, nam) <- get_achar nam ;;
          if negb (skip =? 0) && negb (nchr =? 0) then outer rec k pat nam skip else Ok false
      end
  end.

(* pattern_match, fatfs/fatfs.c:2513-2565 *)
Fixpoint pattern_match (recur : nat) (pat nam : list Z) (skip : Z) : res bool :=
  o <- preskip (Z.to_nat (Z.land skip 255)) nam ;;
  match o with
  | None => Ok false
  | Some nam =>
      let skip := skip - Z.land skip 255 in
      b <- deref pat ;;
      if (b =? 0) && negb (skip =? 0) then Ok true
      else outer (match recur with O => None | S k => Some (pattern_match k) end) (S (length nam)) pat nam skip
  end.

(* The calls in f_findnext, fatfs/fatfs.c, with FIND_RECURS *)
Definition find_match (pat nam : list Z) : res bool := pattern_match 4 pat nam 0.

(* --- drive prefixes --------------------------------------------------------- *)

(* IsTerminator, IsLower, IsDigit, fatfs/fatfs.c:49-52 *)
Definition is_term (c : Z) : bool := c <? 32.
Definition cap (c : Z) : Z := if (97 <=? c) && (c <=? 122) then c - 32 else c.

(* disk_name, with the terminating zeros: "flash", "sd" *)
Definition disk_name : list (list Z) := [[102; 108; 97; 115; 104; 0]; [115; 100; 0]].

(* Finding a colon, fatfs/fatfs.c:2826-2828: the last character read and the
   number of characters read. *)
Fixpoint colon (fuel : nat) (tt : list Z) (n : nat) : res (Z * nat) :=
  match fuel with
  | O => NoFuel
  | S k =>
      '(tc, tt) <- next tt ;;
      if negb (is_term tc) && negb (tc =? 58) then colon k tt (S n) else Ok (tc, S n)
  end.

(* Comparing a name with the path, fatfs/fatfs.c:2840-2848: the last character c
   of the name read, and the number of characters read. *)
Fixpoint same_name (fuel : nat) (sp tp : list Z) (n : nat) : res (Z * nat) :=
  match fuel with
  | O => NoFuel
  | S k =>
      '(c, sp) <- next sp ;;
      '(tc, tp) <- next tp ;;
      if negb (cap c =? 0) && (cap c =? cap tc) then same_name k sp tp (S n) else Ok (cap c, S n)
  end.

(* The search for the drive, fatfs/fatfs.c:2837-2850; the index when none is left
   is DISK_VOLUMES. *)
Fixpoint find_drive (names : list (list Z)) (path : list Z) (n : nat) (i : Z) : res Z :=
  match names with
  | [] => Ok i
  | sp :: names =>
      '(c, m) <- same_name (S (length sp)) sp path 0 ;;
      if negb (c =? 0) || negb (m =? n)%nat then find_drive names path n (i + 1) else Ok i
  end.

(* get_ldnumber, fatfs/fatfs.c:2808-2889: the drive (-1 for none) and the rest of
   the path. *)
Definition get_ldnumber (curr : Z) (path : list Z) : res (Z * list Z) :=
  '(tc, n) <- colon (S (length path)) path 0 ;;
  if tc =? 58 then
    first <- deref path ;;
    i <- (if (48 <=? first) && (first <=? 57) && (n =? 2)%nat then Ok (first - 48) else find_drive disk_name path n 0) ;;
    if i <? 2 then Ok (i, skipn n path) else Ok (-1, path)
  else Ok (curr, path).
