(* An ideal table of open objects: just the sessions, with no limit other than
   the number of different objects. *)
From Verif Require Import Base LockModel.
Open Scope Z_scope.

(* A session: its object (none for a root directory), its volume, whether it may
   write, and whether it is still open. *)
Record session := mkSession { obj : option key; vol : Z; writes : bool; alive : bool }.

Definition key_eq (a b : key) : {a = b} + {a <> b}.
Proof. decide equality; apply Z.eq_dec. Defined.
Definition on (k : key) (x : session) : bool :=
  alive x && match obj x with Some k' => if key_eq k k' then true else false | None => false end.

(* The open sessions of an object, and all open objects. *)
Definition users (l : list session) (k : key) : list session := filter (on k) l.
Definition objects (l : list session) : list key :=
  flat_map (fun x => match obj x with Some k => if alive x then [k] else [] | None => [] end) l.
Definition n_objects (l : list session) : nat := length (nodup key_eq (objects l)).

(* volumes mounted, and sessions in order of creation *)
Record ideal := mkIdeal { up : Z -> bool; sessions : list session; mounts : nat }.

Definition dead (v : Z) (x : session) : session :=
  if vol x =? v then mkSession (obj x) (vol x) (writes x) false else x.
Definition need (s : ideal) (v : Z) : ideal :=
  if up s v then s else mkIdeal (put (up s) v true) (map (dead v) (sessions s)) (S (mounts s)).
Definition record (s : ideal) (x : session) : ideal := mkIdeal (up s) (sessions s ++ [x]) (mounts s).
Definition refused (k : key) : session := mkSession (Some k) (k_fs k) false false.
Fixpoint kill (l : list session) (i : nat) : list session :=
  match l, i with
  | [], _ => []
  | x :: r, O => mkSession (obj x) (vol x) (writes x) false :: r
  | x :: r, S j => x :: kill r j
  end.

(* A new session of k: refused if some session of k writes or, for a writer, if
   there is any; and if it would be the 17th object. *)
Definition grant (l : list session) (k : key) (w : bool) : frc :=
  if (length (users l k) =? 0)%nat then if (n_objects l <? 16)%nat then FR_OK else FR_TOO_MANY_OPEN_FILES
  else if w || existsb writes (users l k) then FR_LOCKED else FR_OK.

Definition ideal_step (s : ideal) (o : op) : ideal * frc :=
  match o with
  | Open k w =>
      let s := need s (k_fs k) in
      match grant (sessions s) k w with
      | FR_OK => (record s (mkSession (Some k) (k_fs k) w true), FR_OK)
      | e => (record s (refused k), e)
      end
  | Create k =>
      let s := need s (k_fs k) in
      match grant (sessions s) k true with
      | FR_OK => (record s (mkSession (Some k) (k_fs k) true true), FR_OK)
      | e => (record s (refused k), e)
      end
  | OpenDir fs own =>
      let s := need s fs in
      if own =? 0 then (record s (mkSession None fs false true), FR_OK)
      else
        match grant (sessions s) (dir_key fs own) false with
        | FR_OK => (record s (mkSession (Some (dir_key fs own)) fs false true), FR_OK)
        | e => (record s (refused (dir_key fs own)), e)
        end
  | Close i =>
      match nth_error (sessions s) i with
      | Some x => if alive x then (mkIdeal (up s) (kill (sessions s) i) (mounts s), FR_OK) else (s, FR_INVALID_OBJECT)
      | None => (s, FR_INVALID_OBJECT)
      end
  | Delete k =>
      let s := need s (k_fs k) in
      (s, if (length (users (sessions s) k) =? 0)%nat then FR_OK else FR_LOCKED)
  | Mount v => (need s v, FR_OK)
  | Unmount v => (if up s v then mkIdeal (put (up s) v false) (map (dead v) (sessions s)) (mounts s) else s, FR_OK)
  end.

Fixpoint ideal_run (s : ideal) (os : list op) : ideal * list frc :=
  match os with
  | [] => (s, [])
  | o :: r => let '(s, a) := ideal_step s o in let '(s, l) := ideal_run s r in (s, a :: l)
  end.

Definition ideal_start : ideal := mkIdeal (fun _ => false) [] 0.

(* What is asked of a request in a state.  A volume number is not NULL.  A file
   has fewer than 255 readers.  A created entry is new, so nobody has it open.
   A directory's key is not that of a file open for writing: offset 0 of a FAT
   directory is its dot entry.  Volumes are mounted at most 65535 times. *)
Definition allowed (s : ideal) (o : op) : Prop :=
  Z.of_nat (mounts s) < 65535 /\
  match o with
  | Open k _ => k_fs k <> 0 /\ (length (users (sessions s) k) < 255)%nat
  | Create k => k_fs k <> 0 /\ length (users (sessions s) k) = 0%nat
  | OpenDir fs own => fs <> 0 /\ (length (users (sessions s) (dir_key fs own)) < 255)%nat /\
      existsb writes (users (sessions s) (dir_key fs own)) = false
  | Delete k => k_fs k <> 0
  | Mount v | Unmount v => v <> 0
  | Close _ => True
  end.
Fixpoint all_allowed (s : ideal) (os : list op) : Prop :=
  match os with [] => True | o :: r => allowed s o /\ all_allowed (fst (ideal_step s o)) r end.

(* The rule of sharing. *)
Definition exclusive (l : list session) : Prop :=
  forall k, existsb writes (users l k) = true -> length (users l k) = 1%nat.
