(* The directory tree of a volume, what paths mean in it, and what operations do to it. *)
From Coq Require Export Permutation.
From Verif Require Import Base FutfModel FutfSpec LfnModel LfnSpec FdirModel FdirSpec FnameModel FnameSpec FpathModel.
Open Scope Z_scope.

(* --- Names --------------------------------------------------------------------------------- *)

Definition good_name (cs : list Z) : Prop := Forall name_char cs /\ cs <> [] /\ zlen (utf16 cs) <= 255 /\ forall z u, cs = z ++ [u] -> ~ blank u.
(* The file was made with the name cs: the long name is kept if the short one cannot tell
   it, else the short one and its case. *)
Definition named (cs : list Z) (f : entry_t) : Prop :=
  exists last fn, form (utf16 cs) last fn /\ fst f = (if has (fn 11) 2 then utf16 cs else []) /\ snd f 12 = Z.land (fn 11) 24 /\ (has (fn 11) 1 = false -> short_same (snd f) fn).
(* The file answers to cs, as its long or as its short name. *)
Definition called (cs : list Z) (f : entry_t) : Prop :=
  (fst f <> [] /\ same_name (fst f) (utf16 cs)) \/
  (exists body ext, split_name (utf16 cs) body ext /\ fits body ext /\ forall k, 0 <= k < 11 -> snd f k = pad body ext k).

(* --- Trees --------------------------------------------------------------------------------- *)

(* The directories, by first cluster (0: the root), and what they list; wide: FAT32. *)
Record tree := mkTree { wide : bool; nodes : list Z; ents : Z -> list entry_t }.
Definition clu (A : tree) (f : entry_t) : Z := ld_clust (wide A) (snd f).
Definition isdir (f : entry_t) : bool := has (snd f 11) 16.
Definition isro (f : entry_t) : bool := has (snd f 11) 1.
(* All files and directories. *)
Definition links (A : tree) : list entry_t := flat_map (ents A) (nodes A).
Definition parent (A : tree) (p c : Z) : Prop := In p (nodes A) /\ exists f, In f (ents A p) /\ isdir f = true /\ clu A f = c.
Inductive reach (A : tree) : Z -> Prop :=
| reach_root : reach A 0
| reach_down : forall p c, reach A p -> parent A p c -> reach A c.
(* c is k or inside of it. *)
Inductive under (A : tree) (k : Z) : Z -> Prop :=
| under_self : under A k k
| under_down : forall p c, under A k p -> parent A p c -> under A k c.
(* Every directory is listed once and can be reached from the root: a tree. *)
Definition shape (A : tree) : Prop :=
  NoDup (nodes A) /\ Permutation (0 :: map (clu A) (filter isdir (links A))) (nodes A) /\ forall c, In c (nodes A) -> reach A c.

(* --- Volumes ------------------------------------------------------------------------------- *)

(* Table c holds the items l; it is as large as its clusters. *)
Definition lay (v : volume) (c : Z) (l : list item) : Prop :=
  dir_ok (table v c) l /\ (fixed v c = false -> chunk (dirs v c) = epc v /\ cap (dirs v c) = epc v * zlen (chains v c)).
(* The dot entries. *)
Definition dot_at (b : bool) (e : Z -> Z) (n c : Z) : Prop := (forall k, 0 <= k < 11 -> e k = if k <? n then 46 else 32) /\ has (e 11) 16 = true /\ ld_clust b e = c.
Definition dots (A : tree) (c : Z) (l : list item) : Prop :=
  if c =? 0 then Forall (fun f => shown f = true) (files l)
  else exists e1 e2 r p, l = File [] e1 :: File [] e2 :: r /\ dot_at (wide A) e1 1 c /\ dot_at (wide A) e2 2 p /\ parent A p c /\ Forall (fun f => shown f = true) (files r).
(* The items l are the directory c of the tree. *)
Record reads (A : tree) (c : Z) (l : list item) : Prop := {
  rd_names : names_ok l;
  rd_ents : filter shown (files l) = ents A c;
  rd_made : Forall (fun f => exists cs, good_name cs /\ named cs f) (ents A c);
  rd_dots : dots A c l }.

(* First clusters of files and directories. *)
Definition owners (A : tree) : list Z := filter (fun k => negb (k =? 0)) (map (clu A) (links A)).
(* Every cluster of the volume is free or belongs to one file or directory. *)
Definition space (v : volume) (A : tree) (total : list Z) : Prop :=
  Permutation (avail v ++ flat_map (chains v) (0 :: owners A)) total /\ forall k, In k (owners A) -> exists t, chains v k = k :: t.

(* Volume v with the clusters total holds the tree A. *)
Record vol_ok (v : volume) (A : tree) (L : Z -> list item) (total : list Z) : Prop := {
  vo_wide : wide A = fat32 v;
  vo_tabs : forall c, In c (nodes A) -> lay v c (L c) /\ reads A c (L c);
  vo_shape : shape A;
  vo_space : space v A total;
  vo_total : NoDup total /\ Forall (fun k => 2 <= k < top v) total;
  vo_geo : 16 <= epc v /\ (epc v | MAXENT) /\ top v <= (if fat32 v then 268435456 else 65536);
  vo_cdir : In (cdir v) (nodes A) }.
Definition holds_tree (v : volume) (A : tree) (total : list Z) : Prop := exists L, vol_ok v A L total.

(* --- Paths --------------------------------------------------------------------------------- *)

(* A path is a list of names; Bad is none that could be a name. *)
Inductive name := Here | Up | Name (cs : list Z) | Bad.
Definition name_of (cs : list Z) (s : name) : Prop :=
  Forall name_char cs /\ cs <> [] /\ zlen (utf16 cs) <= 255 /\
  ((cs = [46] /\ s = Here) \/ (cs = [46; 46] /\ s = Up) \/
   (cs <> [46] /\ cs <> [46; 46] /\ exists y, snipped cs y /\ s = match y with [] => Bad | _ => Name y end)).
Inductive spells : list name -> list Z -> Prop :=
| sp_end : forall t p, 0 <= t < 32 -> spells [] (t :: p)
| sp_last : forall cs s rest p, name_of cs s -> ends rest p true -> spells [s] (utf8 cs ++ rest)
| sp_more : forall cs s rest p ss, name_of cs s -> ends rest p false -> spells ss p -> spells (s :: ss) (utf8 cs ++ rest)
| sp_long : forall cs t ss, Forall name_char cs -> 255 < zlen (utf16 cs) -> spells (Bad :: ss) (utf8 cs ++ t)
| sp_wild : forall cs c t ss, Forall name_char cs -> In c BAD_LFN -> spells (Bad :: ss) (utf8 cs ++ c :: t).
(* From the root, or from the current directory. *)
Inductive path_of : list Z -> bool -> list name -> Prop :=
| po_root : forall s seps c p ss, sep s -> Forall sep seps -> ~ sep c -> spells ss (c :: p) -> path_of (s :: seps ++ c :: p) true ss
| po_here : forall c p ss, ~ sep c -> spells ss (c :: p) -> path_of (c :: p) false ss.

(* Characters of paths: of names, separators, and those that no name has. *)
Definition path_char (c : Z) : Prop := name_char c \/ sep c \/ In c BAD_LFN.

(* What is at the end of a path: a directory named by no entry, a dot entry in c for d, a
   file, a name that is free, or nothing. *)
Inductive target := At (c : Z) | Dot (c d : Z) | Found (c : Z) (f : entry_t) (cs : list Z) | Free (c : Z) (cs : list Z) | NoPath | Invalid.
Definition dotted (A : tree) (c : Z) (s : name) (d : Z) : Prop := c <> 0 /\ ((s = Here /\ d = c) \/ (s = Up /\ parent A d c)).
Inductive lookup (A : tree) : Z -> list name -> target -> Prop :=
| lk_nil : forall c, lookup A c [] (At c)
| lk_bad : forall c ss, lookup A c (Bad :: ss) Invalid
| lk_top : forall s, s = Here \/ s = Up -> lookup A 0 [s] (At 0)
| lk_top_on : forall s ss t, s = Here \/ s = Up -> ss <> [] -> lookup A 0 ss t -> lookup A 0 (s :: ss) t
| lk_dot : forall c s d, dotted A c s d -> lookup A c [s] (Dot c d)
| lk_dot_on : forall c s d ss t, dotted A c s d -> ss <> [] -> lookup A d ss t -> lookup A c (s :: ss) t
| lk_found : forall c cs f, In f (ents A c) -> called cs f -> lookup A c [Name cs] (Found c f cs)
| lk_free : forall c cs, Forall (fun f => ~ called cs f) (ents A c) -> lookup A c [Name cs] (Free c cs)
| lk_down : forall c cs f ss t, In f (ents A c) -> called cs f -> isdir f = true -> ss <> [] -> lookup A (clu A f) ss t -> lookup A c (Name cs :: ss) t
| lk_file : forall c cs f ss, In f (ents A c) -> called cs f -> isdir f = false -> ss <> [] -> lookup A c (Name cs :: ss) NoPath
| lk_miss : forall c cs ss, Forall (fun f => ~ called cs f) (ents A c) -> ss <> [] -> lookup A c (Name cs :: ss) NoPath.
Definition resolves (A : tree) (cd : Z) (path : list Z) (t : target) : Prop :=
  exists root ss, path_of path root ss /\ lookup A (if root then 0 else cd) ss t.

(* --- Effects ------------------------------------------------------------------------------- *)

Definition ld_dword (e : Z -> Z) (o : Z) : Z := ld_word e o + 65536 * ld_word e (o + 2).
(* Entries e and e' are the same but for the bytes ks. *)
Definition but (ks : list Z) (e e' : Z -> Z) : Prop := forall k, 0 <= k < 32 -> ~ In k ks -> e' k = e k.
Definition CLU : list Z := [20; 21; 26; 27].
Definition CRT : list Z := [14; 15; 16; 17].
Definition ACC : list Z := [18; 19].
Definition MOD : list Z := [22; 23; 24; 25].
Definition SIZE : list Z := [28; 29; 30; 31].

Definition with_ents (A : tree) (c : Z) (l : list entry_t) : tree := mkTree (wide A) (nodes A) (put (ents A) c l).
Definition replaced (A : tree) (c : Z) (f f' : entry_t) (A' : tree) : Prop :=
  exists a b, ents A c = a ++ f :: b /\ A' = with_ents A c (a ++ f' :: b).
Definition added (A : tree) (c : Z) (f : entry_t) (A' : tree) : Prop :=
  exists a b, ents A c = a ++ b /\ A' = with_ents A c (a ++ f :: b).
Definition removed (A : tree) (c : Z) (f : entry_t) (A' : tree) : Prop :=
  exists a b, ents A c = a ++ f :: b /\ A' = with_ents A c (a ++ b).
Definition without (A : tree) (k : Z) : tree := mkTree (wide A) (filter (fun c => negb (c =? k)) (nodes A)) (ents A).
Definition with_node (A : tree) (k : Z) : tree := mkTree (wide A) (k :: nodes A) (put (ents A) k []).

(* An empty file, made or overwritten at time tm. *)
Definition emptied (A : tree) (tm : Z) (f f' : entry_t) : Prop :=
  fst f' = fst f /\ but (11 :: CRT ++ MOD ++ CLU ++ SIZE) (snd f) (snd f') /\
  snd f' 11 = 32 /\ ld_dword (snd f') 14 = tm /\ ld_dword (snd f') 22 = tm /\ clu A f' = 0 /\ ld_dword (snd f') 28 = 0.
Definition new_file (A : tree) (tm : Z) (f : entry_t) : Prop :=
  snd f 11 = 32 /\ ld_dword (snd f) 14 = tm /\ ld_dword (snd f) 22 = tm /\ clu A f = 0 /\ ld_dword (snd f) 28 = 0.
Definition new_dir (A : tree) (k tm : Z) (f : entry_t) : Prop := snd f 11 = 16 /\ ld_dword (snd f) 22 = tm /\ clu A f = k /\ ld_dword (snd f) 28 = 0.
(* A file that was written and closed. *)
Definition written (size tm : Z) (f f' : entry_t) : Prop :=
  fst f' = fst f /\ but (11 :: ACC ++ MOD ++ CLU ++ SIZE) (snd f) (snd f') /\
  snd f' 11 = Z.lor (snd f 11) 32 /\ ld_dword (snd f') 28 = size /\ ld_dword (snd f') 22 = tm.
(* A renamed file keeps all but its name; files get the archive attribute. *)
Definition renamed (f f' : entry_t) : Prop :=
  (forall k, 13 <= k < 32 -> snd f' k = snd f k) /\ snd f' 11 = if isdir f then snd f 11 else Z.lor (snd f 11) 32.

(* No n entries in a row are free in the table, however much it is stretched. *)
Definition full (d : dirt) (n : Z) : Prop :=
  forall p, 0 <= p -> p + n <= Z.min MAXENT (cap d + chunk d * spare d) -> exists j, p <= j < p + n /\ j < cap d /\ ~ free (tab d) j.
(* Why cs cannot be added to directory c: it needs a numbered short name, and all of these
   are taken, or there is no room. *)
Definition refused (v : volume) (A : tree) (c : Z) (cs : list Z) : Prop :=
  exists last fn, form (utf16 cs) last fn /\
    ((has (fn 11) 1 = true /\ forall n, 1 <= n < 100 -> exists f, numbered fn n f /\ Exists (fun g => short_same (snd g) f) (ents A c)) \/
     full (table v c) (parts (if has (fn 11) 2 then utf16 cs else []) + 1)).

Definition open_does (v : volume) (A : tree) (mode tm : Z) (t : target) (r : prc) (A' : tree) : Prop :=
  match t with
  | Found c f _ =>
      if has mode 28 then
        if isdir f || isro f then r = R_DENIED /\ A' = A
        else if has mode 4 then r = R_EXIST /\ A' = A
        else r = R_OK /\ if has mode 8 then exists f', replaced A c f f' A' /\ emptied A tm f f' else A' = A
      else (r = if isdir f then R_NO_FILE else if has mode 2 && isro f then R_DENIED else R_OK) /\ A' = A
  | Free c cs =>
      if has mode 28 then (r = R_OK /\ exists f, added A c f A' /\ named cs f /\ new_file A tm f) \/ (r = R_DENIED /\ A' = A /\ refused v A c cs)
      else r = R_NO_FILE /\ A' = A
  | Dot _ _ => (r = if has mode 28 then R_DENIED else R_NO_FILE) /\ A' = A
  | At _ | Invalid => r = R_INVALID_NAME /\ A' = A
  | NoPath => r = R_NO_PATH /\ A' = A
  end.
Definition store_does (A : tree) (size tm : Z) (t : target) (r : prc) (A' : tree) : Prop :=
  match t with
  | Found c f _ =>
      if isdir f then r = R_NO_FILE /\ A' = A
      else if isro f then r = R_DENIED /\ A' = A
      else r = R_OK /\ exists f', replaced A c f f' A' /\ written size tm f f'
  | Free _ _ | Dot _ _ => r = R_NO_FILE /\ A' = A
  | At _ | Invalid => r = R_INVALID_NAME /\ A' = A
  | NoPath => r = R_NO_PATH /\ A' = A
  end.
Definition unlink_does (A : tree) (cd : Z) (t : target) (r : prc) (A' : tree) : Prop :=
  match t with
  | Found c f _ =>
      if isro f then r = R_DENIED /\ A' = A
      else if isdir f then
        ((clu A f = cd \/ ents A (clu A f) <> []) /\ r = R_DENIED /\ A' = A) \/
        (clu A f <> cd /\ ents A (clu A f) = [] /\ r = R_OK /\ removed (without A (clu A f)) c f A')
      else r = R_OK /\ removed A c f A'
  | Free _ _ => r = R_NO_FILE /\ A' = A
  | At _ | Dot _ _ | Invalid => r = R_INVALID_NAME /\ A' = A
  | NoPath => r = R_NO_PATH /\ A' = A
  end.
(* A directory needs a cluster of its own. *)
Definition less (v : volume) : volume := set_chains v (chains v) (tl (avail v)).
Definition mkdir_does (v : volume) (A : tree) (tm : Z) (t : target) (r : prc) (A' : tree) : Prop :=
  match t with
  | Free c cs =>
      (r = R_OK /\ exists k f, ~ In k (nodes A) /\ added (with_node A k) c f A' /\ named cs f /\ new_dir A k tm f) \/
      (r = R_DENIED /\ A' = A /\ (avail v = [] \/ refused (less v) A c cs))
  | Found _ _ _ | At _ | Dot _ _ => r = R_EXIST /\ A' = A
  | Invalid => r = R_INVALID_NAME /\ A' = A
  | NoPath => r = R_NO_PATH /\ A' = A
  end.
(* File f of c becomes cs in c2. *)
Definition moved (v : volume) (A : tree) (c : Z) (f : entry_t) (c2 : Z) (cs : list Z) (r : prc) (A' : tree) : Prop :=
  (r = R_OK /\ exists f' A1, removed A c f A1 /\ added A1 c2 f' A' /\ named cs f' /\ renamed f f') \/ (r = R_DENIED /\ A' = A /\ refused v A c2 cs).
Definition rename_does (v : volume) (A : tree) (t1 t2 : target) (r : prc) (A' : tree) : Prop :=
  match t1 with
  | Found c f _ =>
      match t2 with
      | Free c2 cs => moved v A c f c2 cs r A'
      | Found c2 g cs => (c2 = c /\ g = f /\ moved v A c f c2 cs r A') \/ (~ (c2 = c /\ g = f) /\ r = R_EXIST /\ A' = A)
      | Dot _ _ => r = R_EXIST /\ A' = A
      | At _ => (r = R_EXIST \/ r = R_INVALID_NAME) /\ A' = A
      | Invalid => r = R_INVALID_NAME /\ A' = A
      | NoPath => r = R_NO_PATH /\ A' = A
      end
  | Free _ _ => r = R_NO_FILE /\ A' = A
  | At _ | Dot _ _ | Invalid => r = R_INVALID_NAME /\ A' = A
  | NoPath => r = R_NO_PATH /\ A' = A
  end.
Definition change_does (A : tree) (how : entry_t -> entry_t -> Prop) (t : target) (r : prc) (A' : tree) : Prop :=
  match t with
  | Found c f _ => r = R_OK /\ exists f', replaced A c f f' A' /\ how f f'
  | Free _ _ => r = R_NO_FILE /\ A' = A
  | At _ | Dot _ _ | Invalid => r = R_INVALID_NAME /\ A' = A
  | NoPath => r = R_NO_PATH /\ A' = A
  end.
(* Attribute bits 1 (read only), 2, 4 and 32 change as mask tells. *)
Definition chmodded (attr mask : Z) (f f' : entry_t) : Prop :=
  fst f' = fst f /\ but [11] (snd f) (snd f') /\
  forall i, 0 <= i < 8 -> Z.testbit (snd f' 11) i = if Z.testbit mask i && existsb (Z.eqb i) [0; 1; 2; 5] then Z.testbit attr i else Z.testbit (snd f 11) i.
Definition touched (t : Z) (f f' : entry_t) : Prop := fst f' = fst f /\ but MOD (snd f) (snd f') /\ ld_dword (snd f') 22 = t.
(* The directory at the end of a path. *)
Definition opens (A : tree) (t : target) (r : prc) (d : Z) : Prop :=
  match t with
  | At c => r = R_OK /\ d = c
  | Dot _ c => r = R_OK /\ d = c
  | Found _ f _ => if isdir f then r = R_OK /\ d = clu A f else r = R_NO_PATH
  | Free _ _ | NoPath => r = R_NO_PATH
  | Invalid => r = R_INVALID_NAME
  end.

(* f_stat: the entry, and the name of the file, or as it is in the path if it has a long
   one; a dot entry is a directory. *)
Definition stat_does (A : tree) (t : target) (r : prc) (x : option ((Z -> Z) * list Z * list Z)) : Prop :=
  match t with
  | Found c f cs => r = R_OK /\ exists fname alt, x = Some (snd f, fname, alt) /\
      (fst f = [] -> exists cs', good_name cs' /\ named cs' f /\ (zlen (utf8 cs') <= 255 -> fname = utf8 cs')) /\ (fst f <> [] -> zlen (utf8 cs) <= 255 -> fname = utf8 cs)
  | Dot _ d => r = R_OK /\ exists e fname alt, x = Some (e, fname, alt) /\ has (e 11) 16 = true /\ ld_clust (wide A) e = d
  | Free _ _ => r = R_NO_FILE /\ x = None
  | At _ | Invalid => r = R_INVALID_NAME /\ x = None
  | NoPath => r = R_NO_PATH /\ x = None
  end.

(* The operations on volume v with tree A: answer, tree and current directory after. *)
Definition does (v : volume) (A : tree) (o : op) (r : prc) (A' : tree) (cd' : Z) : Prop :=
  let cd := cdir v in
  match o with
  | Open path mode tm => exists t, resolves A cd path t /\ open_does v A mode tm t r A' /\ cd' = cd
  | Store path n size tm => exists t, resolves A cd path t /\ store_does A size tm t r A' /\ cd' = cd
  | Unlink path => exists t, resolves A cd path t /\ unlink_does A cd t r A' /\ cd' = cd
  | Mkdir path tm => exists t, resolves A cd path t /\ mkdir_does v A tm t r A' /\ cd' = cd
  | Rename a b => exists t1 t2, resolves A cd a t1 /\ resolves A cd b t2 /\ rename_does v A t1 t2 r A' /\ cd' = cd
  | Chmod path attr mask => exists t, resolves A cd path t /\ change_does A (chmodded attr mask) t r A' /\ cd' = cd
  | Utime path tm => exists t, resolves A cd path t /\ change_does A (touched tm) t r A' /\ cd' = cd
  | Chdir path => exists t, resolves A cd path t /\ A' = A /\ exists d, opens A t r d /\ cd' = match r with R_OK => d | _ => cd end
  | Shuffle _ => r = R_OK /\ A' = A /\ cd' = cd
  end.
(* Operations with paths; no directory is moved into itself (see C87_refuted). *)
Definition spelled (path : list Z) : Prop := exists root ss, path_of path root ss.
Definition dword (x : Z) : Prop := 0 <= x < 4294967296.
Definition allowed (A : tree) (cd : Z) (o : op) : Prop :=
  match o with
  | Open path mode tm => spelled path /\ dword tm
  | Store path n size tm => spelled path /\ dword size /\ dword tm
  | Unlink path => spelled path
  | Mkdir path tm => spelled path /\ dword tm
  | Rename a b => spelled a /\ spelled b /\
      forall c f cs c2 cs2, resolves A cd a (Found c f cs) -> isdir f = true -> resolves A cd b (Free c2 cs2) -> ~ under A (clu A f) c2
  | Chmod path attr mask => spelled path /\ 0 <= attr < 256 /\ 0 <= mask < 256
  | Utime path tm => spelled path /\ dword tm
  | Chdir path => spelled path
  | Shuffle _ => True
  end.

(* A volume as it is made: nothing but an empty root directory. *)
Record formatted (v : volume) (total : list Z) : Prop := {
  fm_cap : 1 <= cap (dirs v 0) <= MAXENT /\ (fat32 v = true -> cap (dirs v 0) = epc v * zlen (chains v 0));
  fm_chunk : 1 <= chunk (dirs v 0) /\ (chunk (dirs v 0) | cap (dirs v 0)) /\ (chunk (dirs v 0) | MAXENT) /\ (fat32 v = true -> chunk (dirs v 0) = epc v);
  fm_zero : forall j, 0 <= j < cap (dirs v 0) -> tab (dirs v 0) j 0 = 0 /\ bytes (tab (dirs v 0) j);
  fm_space : Permutation (avail v ++ chains v 0) total /\ NoDup total /\ Forall (fun k => 2 <= k < top v) total;
  fm_geo : 16 <= epc v /\ (epc v | MAXENT) /\ top v <= (if fat32 v then 268435456 else 65536);
  fm_cdir : cdir v = 0 }.
Definition bare (b : bool) : tree := mkTree b [0] (fun _ => []).

(* A list of operations that are allowed one after the other, and what it does. *)
Fixpoint may (total : list Z) (v : volume) (A : tree) (os : list (op * (Z -> Z))) : Prop :=
  match os with
  | [] => True
  | (o, buf) :: os => allowed A (cdir v) o /\ units buf /\
      forall v1 r A1, step v o buf = Ok (v1, r) -> does v A o r A1 (cdir v1) -> holds_tree v1 A1 total -> may total v1 A1 os
  end.
Inductive history : volume -> tree -> list (op * (Z -> Z)) -> list prc -> volume -> tree -> Prop :=
| hist_nil : forall v A, history v A [] [] v A
| hist_cons : forall v A o buf os r rs v1 A1 v' A', step v o buf = Ok (v1, r) -> does v A o r A1 (cdir v1) -> history v1 A1 os rs v' A' -> history v A ((o, buf) :: os) (r :: rs) v' A'.
