(* Theorems about the commands rm and mv. *)
From Coq Require Import String.
From Verif Require Import Base LockModel FutfModel FutfSpec LfnModel LfnSpec FdirModel FdirSpec FnameModel FnameSpec FpathModel FpathSpec FpathExample RmModel RmSpec RmProof5 RmProof6 RmExample.
Open Scope Z_scope.

(* C94: rm *)
Theorem C94_directory : forall bufs, (forall n, units (bufs n)) -> forall fuel o w A total path c f cs,
  holds_tree (vol w) A total -> leads A (cdir (vol w)) path c f cs -> isdir f = true -> short_names A f -> unopened (sems w) A f -> List.length (sems w) = 16%nat ->
  recursive o = true -> yes (hd 0 (keys w)) -> (List.length (nodes A) + List.length (links A) < fuel)%nat ->
  exists w' r A' ms, remove bufs fuel o w path = Ok w' /\ rm_result o total w w' A A' c f r /\ keys w' = tl (keys w) /\ out w' = ms ++ Ask true path :: out w /\ told o r ms.
Proof. exact directory_ok. Qed.
Print Assumptions C94_directory.
Theorem C94_all : forall bufs, (forall n, units (bufs n)) -> forall fuel o w A total path c f cs,
  holds_tree (vol w) A total -> leads A (cdir (vol w)) path c f cs -> isdir f = true -> short_names A f -> unopened (sems w) A f -> List.length (sems w) = 16%nat ->
  recursive o = true -> yes (hd 0 (keys w)) -> (List.length (nodes A) + List.length (links A) < fuel)%nat -> ~ pinned A (cdir (vol w)) f -> ~ deep A (places (sems w)) (clu A f) ->
  exists w' A' ms, remove bufs fuel o w path = Ok w' /\ holds_tree (vol w') A' total /\ deleted A c f A' /\ out w' = ms ++ Ask true path :: out w /\ told o (Rc R_OK) ms.
Proof. exact directory_all. Qed.
Print Assumptions C94_all.
Example C94_example : exists A c f, holds_tree made A (upto 2 18) /\ leads A (cdir made) (chars "d") c f (chars "d") /\ isdir f = true /\ short_names A f /\
  unopened locks0 A f /\ List.length locks0 = 16%nat /\ yes (121) /\ (List.length (nodes A) + List.length (links A) < 9)%nat /\
  ~ pinned A (cdir made) f /\ ~ deep A (places locks0) (clu A f).
Proof. exact rm_example. Qed.
Example C94_run : listed made 0 = [chars "d"] /\ listed (volume_of (remove bufs0 9 rv (shell made [121]) (chars "d"))) 0 = [].
Proof. vm_compute. auto. Qed.

Theorem C94_file : forall bufs, (forall n, units (bufs n)) -> forall fuel o w A total path c f cs,
  holds_tree (vol w) A total -> spelled (path ++ [0]) -> resolves A (cdir (vol w)) (path ++ [0]) (Found c f cs) -> isdir f = false -> force o = true \/ yes (hd 0 (keys w)) ->
  exists w', remove bufs fuel o w path = Ok w' /\ sems w' = sems w /\ keys w' = (if force o then keys w else tl (keys w)) /\ cdir (vol w') = cdir (vol w) /\
    let asked := if force o then out w else Ask false path :: out w in
    if isro f then vol w' = vol w /\ out w' = (if force o then asked else Failed path (Rc R_DENIED) :: asked)
    else exists A', holds_tree (vol w') A' total /\ removed A c f A' /\ out w' = if verbose o then Shown path :: asked else asked.
Proof. exact file_ok. Qed.
Print Assumptions C94_file.
Example C94_file_example : exists A c f, holds_tree made A (upto 2 18) /\ spelled (chars "d/x" ++ [0]) /\ resolves A (cdir made) (chars "d/x" ++ [0]) (Found c f (chars "x")) /\ isdir f = false /\
  shows (remove bufs0 0 (mkOpts true false true) (shell made []) (chars "d/x")) = [Shown (chars "d/x")].
Proof. destruct mv_example as (A & c & f & H1 & H2 & H3 & _ & _ & _ & _ & H4). exists A, c, f. do 4 (split; [auto|]). vm_compute. auto. Qed.

(* Nothing is removed without an answer, nor a directory without -r. *)
Theorem C94_kept : forall bufs, (forall n, units (bufs n)) -> forall fuel o w A total path t,
  holds_tree (vol w) A total -> spelled (path ++ [0]) -> resolves A (cdir (vol w)) (path ++ [0]) t -> spares o t (hd 0 (keys w)) ->
  exists w', remove bufs fuel o w path = Ok w' /\ vol w' = vol w /\ sems w' = sems w /\ exists ms, out w' = ms ++ out w /\ forall p, ~ In (Shown p) ms.
Proof. exact kept_ok. Qed.
Print Assumptions C94_kept.
Example C94_kept_example : exists A c f, holds_tree made A (upto 2 18) /\ spelled (chars "d/x" ++ [0]) /\ resolves A (cdir made) (chars "d/x" ++ [0]) (Found c f (chars "x")) /\
  spares plain (Found c f (chars "x")) (hd 0 (keys (shell made []))) /\ shows (remove bufs0 0 plain (shell made []) (chars "d/x")) = [Kept; Ask false (chars "d/x")].
Proof. destruct mv_example as (A & c & f & H1 & H2 & H3 & _ & _ & _ & _ & H4). exists A, c, f. do 3 (split; [auto|]). split; [cbn; rewrite H4; split; [auto|unfold yes; lia]|]. vm_compute. auto. Qed.

(* The options count for all the paths behind them. *)
Theorem C94_args : forall bufs fuel w cs paths, ~ In 104 cs -> paths <> [] -> fpm_cmd_remove bufs fuel w (map Flag cs ++ map Arg paths) = each bufs fuel (flags cs) w paths.
Proof. exact rm_args. Qed.
Print Assumptions C94_args.
Example C94_args_example : flags (chars "vr") = rv /\ shows (fpm_cmd_remove bufs0 9 (shell made [110; 121]) (map Flag (chars "vr") ++ map Arg [chars "d"; chars "d"])) =
  [Shown (chars "d/x"); Shown (chars "d/x"); Ask true (chars "d"); Kept; Ask true (chars "d")].
Proof. vm_compute. auto. Qed.

(* C95: rm -v shows another path in place of the directory's *)
Theorem C95_refuted : exists A c f w', holds_tree made A (upto 2 18) /\ leads A (cdir made) (chars "d") c f (chars "d") /\ isdir f = true /\
  remove bufs0 9 rv (shell made [121]) (chars "d") = Ok w' /\ (exists A', holds_tree (vol w') A' (upto 2 18) /\ deleted A c f A') /\
  out w' = [Shown (chars "d/x"); Shown (chars "d/x"); Ask true (chars "d")].
Proof. exact verbose_wrong. Qed.
Print Assumptions C95_refuted.
(* rm -rf asks for every directory it is given. *)
Theorem C95_asks_refuted : exists A c f w', holds_tree made A (upto 2 18) /\ leads A (cdir made) (chars "d") c f (chars "d") /\ isdir f = true /\
  remove bufs0 9 (mkOpts true true false) (shell made []) (chars "d") = Ok w' /\ vol w' = made /\ out w' = [Kept; Ask true (chars "d")].
Proof. exact force_asks. Qed.
Print Assumptions C95_asks_refuted.

(* C96: rm -r cannot remove deep trees *)
Theorem C96_refuted : exists A w', holds_tree (vol (shell nested [121])) A (upto 2 18) /\ cdir (vol (shell nested [121])) = 0 /\
  remove bufs0 40 (mkOpts false true false) (shell nested [121]) (chars "d") = Ok w' /\ (exists p, out w' = [Failed p TooMany; Ask true (chars "d")]) /\ listed (vol w') 0 = [chars "d"].
Proof. exact too_deep. Qed.
Print Assumptions C96_refuted.
(* rm -r . removes what is in the directory, then fails. *)
Theorem C96_dot_refuted : exists A w', holds_tree (vol (shell inside [121])) A (upto 2 18) /\ listed (vol (shell inside [121])) (cdir inside) = [chars "x"] /\
  remove bufs0 40 (mkOpts false true false) (shell inside [121]) (chars ".") = Ok w' /\ out w' = [Failed (chars ".") (Rc R_INVALID_NAME); Ask true (chars ".")] /\ listed (vol w') (cdir inside) = [].
Proof. exact dot_empties. Qed.
Print Assumptions C96_dot_refuted.

(* C97: mv *)
Theorem C97_into : forall bufs, (forall n, units (bufs n)) -> forall o w A total src dst c f cs cs' c2,
  holds_tree (vol w) A total -> spelled (src ++ [0]) -> resolves A (cdir (vol w)) (src ++ [0]) (Found c f cs') -> good_name cs -> ends_in src cs -> zlen (utf8 cs) <= 255 ->
  into A (cdir (vol w)) dst c2 -> ~ In 58 dst -> Forall (fun g => ~ called cs g) (ents A c2) -> (isdir f = true -> ~ under A (clu A f) c2) ->
  exists w' r A', fpm_cmd_rename bufs o w [src; dst] = Ok w' /\ holds_tree (vol w') A' total /\ cdir (vol w') = cdir (vol w) /\ sems w' = sems w /\ keys w' = keys w /\ moved (vol w) A c f c2 cs r A' /\
    out w' = (if is_ok (Rc r) then if verbose o then [Shown2 src (slashed dst ++ utf8 cs)] else [] else [Failed2 src (slashed dst ++ utf8 cs) (Rc r)]) ++ out w.
Proof. exact mv_into. Qed.
Print Assumptions C97_into.
Example C97_into_example : (exists A c f, holds_tree made A (upto 2 18) /\ spelled (path "d/x") /\ resolves A (cdir made) (path "d/x") (Found c f (chars "x")) /\ good_name (chars "x") /\ ends_in (chars "d/x") (chars "x") /\
  into A (cdir made) (chars "/") 0 /\ Forall (fun g => ~ called (chars "x") g) (ents A 0) /\ isdir f = false) /\
  let r := fpm_cmd_rename bufs0 rv (shell made []) [chars "d/x"; chars "/"] in shows r = [Shown2 (chars "d/x") (chars "/x")] /\ listed (volume_of r) 0 = [chars "d"; chars "x"].
Proof. split; [exact mv_example|]. vm_compute. auto. Qed.
Theorem C97_new : forall bufs, (forall n, units (bufs n)) -> forall o w A total src dst c f cs c2 cs2,
  holds_tree (vol w) A total -> spelled (src ++ [0]) -> spelled (dst ++ [0]) -> resolves A (cdir (vol w)) (src ++ [0]) (Found c f cs) -> resolves A (cdir (vol w)) (dst ++ [0]) (Free c2 cs2) -> ~ In 58 dst ->
  (isdir f = true -> ~ under A (clu A f) c2) ->
  exists w' r A', fpm_cmd_rename bufs o w [src; dst] = Ok w' /\ holds_tree (vol w') A' total /\ cdir (vol w') = cdir (vol w) /\ sems w' = sems w /\ keys w' = keys w /\ moved (vol w) A c f c2 cs2 r A' /\
    out w' = (if is_ok (Rc r) then if verbose o then [Shown2 src dst] else [] else [Failed2 src dst (Rc r)]) ++ out w.
Proof. exact mv_new. Qed.
Print Assumptions C97_new.
Example C97_new_example : (exists A c f c2, holds_tree made A (upto 2 18) /\ spelled (path "d") /\ spelled (path "e") /\ resolves A (cdir made) (path "d") (Found c f (chars "d")) /\ isdir f = true /\
  resolves A (cdir made) (path "e") (Free c2 (chars "e")) /\ ~ under A (clu A f) c2) /\
  listed (volume_of (fpm_cmd_rename bufs0 plain (shell made []) [chars "d"; chars "e"])) 0 = [chars "e"].
Proof. split; [exact mv_new_example|]. vm_compute. auto. Qed.

(* C98: mv never replaces a file, whatever the answer *)
Theorem C98_taken : forall bufs, (forall n, units (bufs n)) -> forall o w A total src dst c f cs cs' c2 g,
  holds_tree (vol w) A total -> spelled (src ++ [0]) -> resolves A (cdir (vol w)) (src ++ [0]) (Found c f cs') -> good_name cs -> ends_in src cs -> zlen (utf8 cs) <= 255 ->
  into A (cdir (vol w)) dst c2 -> ~ In 58 dst -> In g (ents A c2) -> called cs g -> ~ (c2 = c /\ g = f) ->
  exists w', fpm_cmd_rename bufs o w [src; dst] = Ok w' /\ holds_tree (vol w') A total /\ cdir (vol w') = cdir (vol w) /\ sems w' = sems w /\
    out w' = (if force o then [Failed2 src (slashed dst ++ utf8 cs) (Rc R_EXIST)] else if (hd 0 (keys w) =? 121) || (hd 0 (keys w) =? 89) then [Failed2 src (slashed dst ++ utf8 cs) (Rc R_EXIST); Ask false (slashed dst ++ utf8 cs)] else [Kept; Ask false (slashed dst ++ utf8 cs)]) ++ out w.
Proof. exact mv_taken. Qed.
Print Assumptions C98_taken.
Theorem C98_refuted : exists A w', holds_tree (vol (shell two [121])) A (upto 2 18) /\ fpm_cmd_rename bufs0 plain (shell two [121]) [chars "a"; chars "b"] = Ok w' /\
  out w' = [Failed2 (chars "a") (chars "b") (Rc R_EXIST); Ask false (chars "b")] /\ listed (vol w') 0 = [chars "a"; chars "b"].
Proof. exact never_overwrites. Qed.
Print Assumptions C98_refuted.

(* C99: mv is not safe *)
(* A directory moved into itself is lost. *)
Theorem C99_itself_refuted : exists A w', holds_tree (vol (shell one [])) A (upto 2 18) /\ fpm_cmd_rename bufs0 plain (shell one []) [chars "d"; chars "d"] = Ok w' /\ out w' = [] /\ forall A', ~ holds_tree (vol w') A' (upto 2 18).
Proof. exact mv_into_itself. Qed.
Print Assumptions C99_itself_refuted.
(* A last part of more than 256 bytes does not fit the buffer. *)
Theorem C99_overflow : forall bufs, (forall n, units (bufs n)) -> forall o w A total src dst c2, holds_tree (vol w) A total -> into A (cdir (vol w)) dst c2 -> ~ In 58 dst -> 256 < zlen (last_part src) -> fpm_cmd_rename bufs o w [src; dst] = Ub.
Proof. exact mv_overflow. Qed.
Print Assumptions C99_overflow.
Theorem C99_refuted : exists A src, holds_tree made A (upto 2 18) /\ zlen src = 257 /\ Forall (fun c => c = 97) src /\ fpm_cmd_rename bufs0 plain (shell made []) [src; chars "d"] = Ub.
Proof. exact mv_too_long. Qed.
Print Assumptions C99_refuted.
