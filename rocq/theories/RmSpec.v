(* What the commands rm and mv should do. *)
From Verif Require Import Base FutfModel FutfSpec LfnModel LfnSpec FdirModel FdirSpec FnameModel FnameSpec FpathModel FpathSpec LockModel RmModel.
Open Scope Z_scope.

(* The path leads to file f, called cs, of directory c, without going up on the way. *)
Definition leads (A : tree) (cd : Z) (path : list Z) (c : Z) (f : entry_t) (cs : list Z) : Prop :=
  Forall (fun x => 32 <= x) path /\ exists root ss, path_of (path ++ [0]) root ss /\ ~ In Up ss /\ lookup A (if root then 0 else cd) ss (Found c f cs).

(* Directory k is below f, or the one f names. *)
Definition below (A : tree) (f : entry_t) (k : Z) : Prop := isdir f = true /\ under A (clu A f) k.

(* File f of directory c is gone with all below; all else is as it was. *)
Definition deleted (A : tree) (c : Z) (f : entry_t) (A' : tree) : Prop :=
  wide A' = wide A /\ (forall k, In k (nodes A') <-> In k (nodes A) /\ ~ below A f k) /\
  (exists a b, ents A c = a ++ f :: b /\ ents A' c = a ++ b) /\ forall k, In k (nodes A') -> k <> c -> ents A' k = ents A k.
(* Some of what is below f is gone: in each directory the first of the files. *)
Definition partly (A : tree) (f : entry_t) (A' : tree) : Prop :=
  wide A' = wide A /\ (forall k, In k (nodes A) -> ~ below A f k -> In k (nodes A') /\ ents A' k = ents A k) /\
  forall k, In k (nodes A') -> In k (nodes A) /\ exists first, ents A k = first ++ ents A' k.

(* No read only file is gone. *)
Definition spared (A A' : tree) : Prop := forall k g, In k (nodes A) -> In g (ents A k) -> isro g = true -> In k (nodes A') /\ In g (ents A' k).

(* Why only some can be gone: a read only file, or the current directory, ... *)
Definition pinned (A : tree) (cd : Z) (f : entry_t) : Prop :=
  isro f = true \/ below A f cd \/ exists k g, In k (nodes A) /\ below A f k /\ In g (ents A k) /\ isro g = true.
(* ... or n directories, one in the other, below directory k. *)
Fixpoint deep (A : tree) (n : nat) (k : Z) : Prop :=
  match n with 0%nat => True | Datatypes.S n => exists c, parent A k c /\ deep A n c end.

(* Files[]: free places, and none for a directory below f.  The volume is number 1. *)
Definition places (s : list sem) : nat := length (filter LockModel.blank s).
Definition unopened (s : list sem) (A : tree) (f : entry_t) : Prop := Forall (fun x => s_fs x = 1 -> s_ofs x = 0 -> ~ below A f (s_clu x)) s.
(* As before, but for entries not in use. *)
Definition same_locks (s s' : list sem) : Prop := Forall2 (fun a b => b = a \/ (LockModel.blank a = true /\ LockModel.blank b = true)) s s'.

(* All names below f are of at most 255 bytes. *)
Definition short_names (A : tree) (f : entry_t) : Prop :=
  forall k g, In k (nodes A) -> below A f k -> In g (ents A k) -> exists cs, good_name cs /\ named cs g /\ zlen (utf8 cs) <= 255.

(* What was shown since: an error if there is one, else paths if wanted. *)
Definition told (o : opts) (r : crc) (ms : list msg) : Prop :=
  if is_ok r then Forall (fun m => exists p, m = Shown p) ms /\ (verbose o = false -> ms = []) else exists p, In (Failed p r) ms.

(* The outcome of rm -r for directory f of c, with answer r. *)
Definition rm_result (o : opts) (total : list Z) (w w' : world) (A A' : tree) (c : Z) (f : entry_t) (r : crc) : Prop :=
  holds_tree (vol w') A' total /\ cdir (vol w') = cdir (vol w) /\ same_locks (sems w) (sems w') /\ spared A A' /\
  ((r = Rc R_OK /\ deleted A c f A') \/
   (partly A f A' /\ ((r = Rc R_DENIED /\ pinned A (cdir (vol w)) f) \/ (r = TooMany /\ deep A (places (sems w)) (clu A f))))).
Definition yes (k : Z) : Prop := k = 121 \/ k = 89.
(* rm has nothing to do, or is not allowed to: t is what the path leads to, k the answer. *)
Definition spares (o : opts) (t : target) (k : Z) : Prop :=
  match t with
  | Found _ f _ => if isdir f then recursive o = false \/ ~ yes k else force o = false /\ ~ yes k
  | Dot _ _ => recursive o = false \/ ~ yes k
  | _ => True
  end.

(* mv: the directory a path leads to. *)
Definition dir_at (A : tree) (t : target) (c : Z) : Prop :=
  match t with At d => c = d | Dot _ d => c = d | Found _ f _ => isdir f = true /\ c = clu A f | _ => False end.
Definition into (A : tree) (cd : Z) (path : list Z) (c : Z) : Prop :=
  Forall (fun x => 32 <= x) path /\ path <> [] /\ exists t, resolves A cd (path ++ [0]) t /\ dir_at A t c.
(* The path ends in the name cs. *)
Definition ends_in (path : list Z) (cs : list Z) : Prop := path = utf8 cs \/ exists p, path = p ++ 47 :: utf8 cs.
