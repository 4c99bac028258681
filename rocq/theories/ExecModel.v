(* Model of kernel/fpm_exec.c with unix/loader_unix.c below it.  Strings are the
   characters without the terminator, except in the path buffer of find_exe.
   The calls with an effect outside are recorded as events. *)
From Coq Require Import String Ascii.
From Verif Require Import Base Arr LoadModel.
Open Scope Z_scope.

(* Text constants. *)
Definition str (s : string) : list Z := map (fun a => Z.of_N (N_of_ascii a)) (list_ascii_of_string s).

Inductive command := CHelp | CCat | CCd | CClear | CCopy | CDate | CDir | CEcho | CEject | CRemove | CFormat | CMkdir
  | CMount | CRename | CReboot | CRmdir | CTime | CVer | CVol.

(* cmd_tab, kernel/fpm_exec.c:63-92 *)
Definition cmd_tab : list (list Z * command) :=
  [(str "?", CHelp); (str "cat", CCat); (str "cd", CCd); (str "clear", CClear); (str "cls", CClear); (str "copy", CCopy);
   (str "cp", CCopy); (str "date", CDate); (str "dir", CDir); (str "echo", CEcho); (str "eject", CEject); (str "erase", CRemove);
   (str "format", CFormat); (str "help", CHelp); (str "ls", CDir); (str "mkdir", CMkdir); (str "mount", CMount); (str "mv", CRename);
   (str "reboot", CReboot); (str "rename", CRename); (str "rm", CRemove); (str "rmdir", CRmdir); (str "time", CTime);
   (str "type", CCat); (str "ver", CVer); (str "vol", CVol)].

(* strcasecmp(a, b) == 0 in the C locale. *)
Definition tolower (c : Z) : Z := if (65 <=? c) && (c <=? 90) then c + 32 else c.
Definition strcaseeq (a b : list Z) : bool := Zs_eqb (map tolower a) (map tolower b).

Fixpoint find_cmd (t : list (list Z * command)) (name : list Z) : option command :=
  match t with
  | [] => None
  | (n, c) :: t' => if strcaseeq n name then Some c else find_cmd t' name
  end.

Definition has_char (s : list Z) (c : Z) : bool := existsb (fun x => x =? c) s.

(* strcpy and strcat into an array. *)
Definition strcpy (buf s : list Z) : res (list Z) :=
  if (length s <? length buf)%nat then Ok (s ++ 0 :: skipn (S (length s)) buf) else Ub.
Definition strcat (buf s : list Z) : res (list Z) :=
  d <- cstr buf ;;
  r <- strcpy (skipn (length d) buf) s ;; Ok (firstn (length d) buf ++ r).

Inductive message := MNotFound | MCannotOpen | MCannotStat | MCannotMap | MLoad (e : load_error) | MMissing (names : list (list Z))
  | MNoStack | MNoHeap | MDrive.

Inductive event :=
| Chdrive (path : list Z)
| Builtin (c : command) (argv : list (list Z))
| Open (path : list Z) (fd : Z)
| Close (fd : Z)
| Map (contents : list Z)
| Unmap                        (* of what Map mapped *)
| UnmapFailed                  (* munmap(MAP_FAILED, ...) *)
| Push
| Pop
| Call (entry : Z) (got : list slot) (argv : list (list Z))
| Say (m : message).

(* What the environment answers: f_stat, open (negative: failure), fstat, mmap
   (None: MAP_FAILED), f_chdrive, the stack check, fpm_context_push. *)
Record world := World {
  w_stat : list Z -> bool;
  w_open : list Z -> Z;
  w_fstat : list Z -> bool;
  w_map : list Z -> option (list Z);
  w_drive : list Z -> bool;
  w_stack : bool;
  w_push : bool }.

(* find_exe, kernel/fpm_exec.c:18-54; [buf]: the caller's array. *)
Definition find_exe (w : world) (name buf : list Z) : res (option (list Z)) :=
  if has_char name 47 then Ok (Some name)
  else if has_char name 46 then Ok (Some name)
  else
    b <- strcpy buf name ;; b <- strcat b (str ".exe") ;; p <- cstr b ;;
    if w_stat w p then Ok (Some p)
    else
      b <- strcpy b (str "flash:/bin/") ;; b <- strcat b name ;; b <- strcat b (str ".exe") ;; p <- cstr b ;;
      Ok (if w_stat w p then Some p else None).

Section Exec.
Variable b64 : bool.
Variable machine : Z.
Variable bindings : list table.      (* fpm_bindings *)

(* fpm_unload_arch, unix/loader_unix.c:44-59: ctx->base is null, MAP_FAILED or
   a mapping; ctx->fd. *)
Inductive base := Null | MapFailed | Mapped (contents : list Z).
Definition unload_arch (b : base) (fd : Z) : list event :=
  (match b with Null => [] | MapFailed => [UnmapFailed] | Mapped _ => [Unmap] end) ++ (if 0 <? fd then [Close fd] else []).

(* fpm_load_arch, unix/loader_unix.c:14-39: success, base, fd. *)
Definition load_arch (w : world) (path : list Z) : list event * bool * base * Z :=
  let fd := w_open w path in
  if fd <? 0 then ([Say MCannotOpen], false, Null, fd)
  else if negb (w_fstat w path) then ([Open path fd; Say MCannotStat; Close fd], false, Null, fd)
  else match w_map w path with
       | None => ([Open path fd; Say MCannotMap; Close fd], false, MapFailed, fd)
       | Some f => ([Open path fd; Map f], true, Mapped f, fd)
       end.

(* fpm_load, kernel/fpm_loader.c:65-144: what happened, and when it succeeded the
   contents, fd, rel_section and num_links. *)
Definition load (w : world) (path : list Z) : res (list event * option (list Z * Z * Z * Z)) :=
  let '(tr, ok, b, fd) := load_arch w path in
  match b with
  | Mapped f =>
      r <- check_file b64 machine f ;;
      match r with
      | inl e => Ok (tr ++ [Say (MLoad e)] ++ unload_arch b fd, None)
      | inr (rel, num) => Ok (tr, Some (f, fd, rel, num))
      end
  | _ => Ok (tr ++ unload_arch b fd, None)
  end.

(* kernel/fpm_exec.c:137-168 *)
Definition run_file (w : world) (path : list Z) (argv : list (list Z)) : res (list event) :=
  '(tr, r) <- load w path ;;
  match r with
  | None => Ok tr
  | Some (f, fd, rel, num) =>
      if negb (w_stack w) then Ok (tr ++ [Say MNoStack])
      else if negb (w_push w) then Ok (tr ++ [Say MNoHeap])
      else
        i <- invoke b64 f bindings rel num ;;
        Ok (tr ++ [Push] ++ (match i with Missing l => [Say (MMissing l)] | Called e g => [Call e g argv] end) ++
            unload_arch (Mapped f) fd ++ [Pop])
  end.

(* fpm_exec, kernel/fpm_exec.c:59-169.  [junk]: what the array buf holds before;
   its length is strlen(argv[0]) + sizeof(".exe") + sizeof("flash:/bin"). *)
Definition exec (w : world) (junk : list Z) (argv : list (list Z)) : res (list event) :=
  match argv with
  | [] => Ub
  | name :: _ =>
      last <- (match name with [] => Ub | _ => rd name (length name - 1) end) ;;
      if last =? 58 then
        Ok (Chdrive name :: if w_drive w name then [] else [Say MDrive])
      else
        match find_cmd cmd_tab name with
        | Some c => Ok [Builtin c argv]
        | None =>
            let buf := firstn (length name + 5 + 11) junk in
            r <- find_exe w name buf ;;
            match r with
            | None => Ok [Say MNotFound]
            | Some path => run_file w path argv
            end
        end
  end.

End Exec.
