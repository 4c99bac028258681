(* What cp should do. *)
From Verif Require Import Base CopyModel.
Open Scope Z_scope.

(* --- names and paths --- *)

Definition good (n : name) : Prop := n <> [] /\ ~ In 47 n /\ n <> [46] /\ n <> [46; 46] /\ (length n <= 255)%nat.
(* A text made of names, slashes between them and perhaps around. *)
Inductive parts : list Z -> list name -> Prop :=
| PEnd : parts [] []
| PSlash s ns : parts s ns -> parts (47 :: s) ns
| PLast n : good n -> parts n [n]
| PNext n s ns : good n -> parts s ns -> parts (n ++ 47 :: s) (n :: ns).
(* The path leads, by directories, to the place p. *)
Definition leads (w : world) (s : list Z) (p : path) : Prop := exists ns start, parts s ns /\ ns <> [] /\
  (hd 0 s = 47 /\ start = [] \/ hd 0 s <> 47 /\ start = cwd w) /\ p = start ++ ns /\
  forall a b, ns = a ++ b -> a <> [] -> b <> [] -> find (fs w) (start ++ a) = Some D.
Definition under (p q : path) : Prop := exists t, q = p ++ t.
Definition apart (p q : path) : Prop := ~ under p q /\ ~ under q p.

(* --- worlds --- *)

(* A file system: every name is good and stands once in a directory. *)
Definition tree (l : files) : Prop := NoDup (map fst l) /\
  forall p o, In (p, o) l -> exists a n, p = a ++ [n] /\ good n /\ (a = [] \/ In (a, D) l).
Definition sane (w : world) : Prop := tree (fs w) /\ (cwd w = [] \/ find (fs w) (cwd w) = Some D).

Definition kind (o : obj) : bool := match o with D => true | F _ => false end.
(* No file where the copy has a directory, no directory where it has a file. *)
Definition fits (l : files) (p q : path) : Prop := forall t a b, find l (p ++ t) = Some a -> find l (q ++ t) = Some b -> kind a = kind b.
(* No question will be asked. *)
Definition quiet (o : opts) (l : files) (p q : path) : Prop := force o = true \/ forall t d, find l (p ++ t) <> None -> find l (q ++ t) <> Some (F d).
(* Not too many levels of directories for the places in Files[]. *)
Definition shallow (w : world) (p : path) : Prop := forall t, find (fs w) (p ++ t) <> None -> (length (opened w) + length t + 2 <= LOCKS)%nat.
(* Nothing in q is open. *)
Definition free (w : world) (q : path) : Prop := Forall (fun r => ~ under q r) (opened w).
(* Entries in and below p. *)
Definition size (l : files) (p : path) : nat := length (filter (fun e => match strip p (fst e) with Some _ => true | None => false end) l).

(* --- results --- *)

(* All of p, and all below it, is now at q too; all else is as it was. *)
Definition copied (l l' : files) (p q : path) : Prop :=
  (forall t x, find l (p ++ t) = Some x -> find l' (q ++ t) = Some x) /\
  forall r, (forall t, r = q ++ t -> find l (p ++ t) = None) -> find l' r = find l r.
(* Only what is in q was touched, and no file or directory is gone. *)
Definition confined (l l' : files) (q : path) : Prop :=
  (forall r, ~ under q r -> find l' r = find l r) /\
  (forall r x, find l r = Some x -> exists x', find l' r = Some x' /\ kind x' = kind x).
(* What was shown since: the files copied, if wanted. *)
Definition shown (o : opts) (w w' : world) : Prop := exists ms, out w' = ms ++ out w /\ Forall (fun m => exists a b, m = Copied a b) ms /\ (verbose o = false -> ms = []).
(* All is closed again. *)
Definition closed (w w' : world) : Prop := opened w' = opened w /\ cwd w' = cwd w /\ sane w'.
(* The same for several things copied into directory c: ps with their names. *)
Definition copied_all (l l' : files) (ps : list (path * name)) (c : path) : Prop :=
  (forall p n t x, In (p, n) ps -> find l (p ++ t) = Some x -> find l' (c ++ n :: t) = Some x) /\
  forall r, (forall p n t, In (p, n) ps -> r = c ++ n :: t -> find l (p ++ t) = None) -> find l' r = find l r.

(* --- calls --- *)

Definition ready (fuel : nat) (o : opts) (w : world) (p q : path) : Prop := apart p q /\
  (exists x, find (fs w) p = Some x /\ (recursive o = true \/ kind x = false)) /\
  quiet o (fs w) p q /\ fits (fs w) p q /\ free w q /\ shallow w p /\ (size (fs w) p < fuel)%nat.
Definition slash_end (s : list Z) : Prop := exists s', s = s' ++ [47].
(* The path of a directory. *)
Definition into (w : world) (d : list Z) (c : path) : Prop :=
  leads w d c /\ find (fs w) c = Some D \/ d <> [] /\ Forall (fun x => x = 47) d /\ c = [].
(* The sources: where they lead, and their last names. *)
Definition given (w : world) (ss : list (list Z)) (ps : list (path * name)) : Prop :=
  Forall2 (fun s e => leads w s (fst e) /\ (exists a, fst e = a ++ [snd e]) /\ ~ slash_end s) ss ps.
Definition reliable (luck : nat -> verdict) : Prop := forall k, luck k = Fine.
