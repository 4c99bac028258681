(* What a command name means. *)
From Coq Require Import String.
From Verif Require Import Base LoadModel ExecModel.
Open Scope Z_scope.

(* The names of each built-in command, as kernel/cmd/cmd_help.c and the comments
   of the command table list them. *)
Definition names_of (c : command) : list (list Z) :=
  match c with
  | CHelp => [str "?"; str "help"]
  | CCat => [str "cat"; str "type"]
  | CCd => [str "cd"]
  | CClear => [str "clear"; str "cls"]
  | CCopy => [str "copy"; str "cp"]
  | CDate => [str "date"]
  | CDir => [str "dir"; str "ls"]
  | CEcho => [str "echo"]
  | CEject => [str "eject"]
  | CRemove => [str "erase"; str "rm"]
  | CFormat => [str "format"]
  | CMkdir => [str "mkdir"]
  | CMount => [str "mount"]
  | CRename => [str "mv"; str "rename"]
  | CReboot => [str "reboot"]
  | CRmdir => [str "rmdir"]
  | CTime => [str "time"]
  | CVer => [str "ver"]
  | CVol => [str "vol"]
  end.

(* The same letter, upper or lower case. *)
Definition same_letter (a b : Z) : Prop :=
  a = b \/ (97 <= a <= 122 /\ b = a - 32) \/ (97 <= b <= 122 /\ a = b - 32).
Definition same_name (a b : list Z) : Prop := Forall2 same_letter a b.

Definition is_drive (name : list Z) : Prop := exists p, name = p ++ [58].
Definition is_builtin (name : list Z) (c : command) : Prop := exists n, In n (names_of c) /\ same_name n name.
Definition is_path (name : list Z) : Prop := In 47 name \/ In 46 name.

Inductive meaning := MeansDrive | MeansBuiltin (c : command) | MeansFile (path : list Z) | MeansNothing.

Definition here (name : list Z) : list Z := name ++ str ".exe".
Definition there (name : list Z) : list Z := str "flash:/bin/" ++ name ++ str ".exe".

(* [exists_file]: the names f_stat finds. *)
Definition means (exists_file : list Z -> bool) (name : list Z) (m : meaning) : Prop :=
  match m with
  | MeansDrive => is_drive name
  | MeansBuiltin c => ~ is_drive name /\ is_builtin name c
  | MeansFile p =>
      ~ is_drive name /\ (forall c, ~ is_builtin name c) /\
      (is_path name /\ p = name \/
       ~ is_path name /\ exists_file (here name) = true /\ p = here name \/
       ~ is_path name /\ exists_file (here name) = false /\ exists_file (there name) = true /\ p = there name)
  | MeansNothing =>
      ~ is_drive name /\ (forall c, ~ is_builtin name c) /\ ~ is_path name /\
      exists_file (here name) = false /\ exists_file (there name) = false
  end.

(* How often something happened. *)
Definition count (p : event -> bool) (tr : list event) : nat := length (filter p tr).
Definition opens (fd : Z) (e : event) : bool := match e with Open _ d => d =? fd | _ => false end.
Definition closes (fd : Z) (e : event) : bool := match e with Close d => d =? fd | _ => false end.
Definition is_map (e : event) : bool := match e with Map _ => true | _ => false end.
Definition is_unmap (e : event) : bool := match e with Unmap => true | UnmapFailed => true | _ => false end.
Definition is_push (e : event) : bool := match e with Push => true | _ => false end.
Definition is_pop (e : event) : bool := match e with Pop => true | _ => false end.

Definition balanced (tr : list event) : Prop :=
  (forall fd, count (opens fd) tr = count (closes fd) tr) /\ count is_map tr = count is_unmap tr /\ count is_push tr = count is_pop tr.
