(* Names: the directory form of a name, names in a directory, listed names. *)
From Verif Require Import Base CrcSpec FutfModel FutfSpec LfnModel LfnSpec LfnExample FdirModel FdirSpec FdirExample FnameModel FnameSpec FnameProof FnameProof2 FnameProof3 FnameProof4 FnameProof5 FnameProof6 FnameExample.
Open Scope Z_scope.

(* A valid name in a path, whatever follows: the long name is kept but for trailing spaces
   and dots, and the short name is its 8.3 form if it has one. *)
Theorem C77_create : forall cs rest p last buf, Forall name_char cs -> zlen (utf16 cs) <= 255 -> ends rest p last ->
  answer (utf16 cs) p last buf (create_name (utf8 cs ++ rest) buf).
Proof. exact create_ok. Qed.
Print Assumptions C77_create.
(* Names which are too long or contain a wrong character are rejected. *)
Theorem C77_reject : forall cs t rest buf, Forall name_char cs -> 255 < zlen (utf16 cs) \/ In t [42; 58; 60; 62; 124; 34; 63; 127] ->
  create_name (utf8 cs ++ t :: rest) buf = Ok None.
Proof. exact create_reject. Qed.
Print Assumptions C77_reject.
(* Any bytes up to a NUL: nothing is read or written outside of the path and the buffer,
   and the answer is right for what was read. *)
Theorem C77_any : forall path buf, Forall byte path -> In 0 path -> create_name path buf = Ok None \/
  exists p xs last, (exists q, path = q ++ p) /\ Forall byte p /\ (last = false -> In 0 p) /\ xunits xs /\ zlen xs <= 255 /\ answer xs p last buf (create_name path buf).
Proof. exact create_any. Qed.
Print Assumptions C77_any.
(* Two names of 8.3 form have the same short name if and only if they differ in case only. *)
Theorem C77_short : forall x y lx ly fx fy, clean x -> clean y -> form x lx fx -> form y ly fy -> has (fx 11) 1 = false -> has (fy 11) 1 = false ->
  short_same fx fy <-> same_name x y.
Proof. exact short_tells. Qed.
Print Assumptions C77_short.
(* U+FFFF is accepted in a name, but then the file is not found by this name. *)
Theorem C77_ffff_refuted : exists p fn lfn d i, create_name ffff buf0 = Ok (Some (p, fn, lfn)) /\ dir_register d0 fn lfn = Ok (d, D_OK, i) /\ exists j b, dir_find d fn lfn = Ok (D_NO_FILE, j, b).
Proof. exact ffff_lost. Qed.
Print Assumptions C77_ffff_refuted.

Example C77_chars : Forall name_char [70; 246; 111; 46; 116; 120; 116; 32; 128512] /\ ends [47; 92; 97; 0] [97; 0] false.
Proof.
  split; [repeat (constructor; [unfold name_char, scalar; cbn; lia|]); constructor|]. apply (ends_sep 47 [92] 97 [0]); [left; auto|repeat constructor; right; auto|unfold sep; lia].
Qed.
(* readme.txt/x; a longer one with spaces and two dots; a name with a colon; dots *)
Example C77_example :
  see 11 (create_name [114; 101; 97; 100; 109; 101; 46; 116; 120; 116; 47; 120; 0] buf0) = Some ([82; 69; 65; 68; 77; 69; 32; 32; 84; 88; 84; 24], [114; 101; 97; 100; 109; 101; 46; 116; 120; 116; 0], [120; 0]) /\
  see 11 (create_name [97; 32; 98; 46; 84; 97; 114; 46; 120; 122; 46; 32; 0; 9] buf0) = Some ([65; 66; 84; 65; 82; 32; 32; 32; 88; 90; 32; 7], [97; 32; 98; 46; 84; 97; 114; 46; 120; 122; 0], [9]) /\
  create_name [97; 58; 98; 0] buf0 = Ok None /\
  see 3 (create_name [46; 46; 47; 47; 0] buf0) = Some ([46; 46; 32; 32; 32; 32; 32; 32; 32; 32; 32; 36], [46; 46; 0], [0]).
Proof. vm_compute. auto. Qed.

(* In a directory without clashes a name is that of one file at most (which C76_find
   finds), making a file keeps it so and adds one with this name, and removing keeps it so. *)
Theorem C78_one : forall d l x last fn a f b, dir_ok d l -> names_ok l -> form x last fn -> files l = a ++ f :: b -> hit x fn f -> Forall (fun g => ~ hit x fn g) (a ++ b).
Proof. exact one_file. Qed.
Print Assumptions C78_one.
Theorem C78_make : forall d l x last fn buf, dir_ok d l -> names_ok l -> form x last fn -> clean x -> name_ok x -> holds buf x -> units buf -> Forall (fun g => ~ hit x fn g) (files l) ->
  (exists d' i l' e a b, dir_register d fn buf = Ok (d', D_OK, i) /\ dir_ok d' l' /\ names_ok l' /\ tab d' i = e /\
     files l = a ++ b /\ files l' = a ++ (if has (fn 11) 2 then x else [], e) :: b /\ hit x fn (if has (fn 11) 2 then x else [], e) /\
     e 11 = 0 /\ e 12 = Z.land (fn 11) 24 /\ (forall k, 13 <= k < 32 -> e k = 0) /\ (has (fn 11) 1 = false -> short_same e fn)) \/
  (exists d' i, dir_register d fn buf = Ok (d', D_DENIED, i) /\ dir_ok d' l).
Proof. exact create_names. Qed.
Print Assumptions C78_make.
Theorem C78_remove : forall d l1 w e l2, dir_ok d (l1 ++ File w e :: l2) -> names_ok (l1 ++ File w e :: l2) ->
  exists d' l', dir_remove d (sizes l1 + parts w) (read_blk w (sizes l1)) = Ok (d', D_OK) /\ dir_ok d' l' /\ names_ok l' /\ files l' = files l1 ++ files l2.
Proof. exact remove_one. Qed.
Print Assumptions C78_remove.
(* A file made with a name is found with it again. *)
Theorem C78_again : forall x l1 l2 fn fn' e, form x l1 fn -> form x l2 fn' -> x <> [] -> (has (fn 11) 1 = false -> short_same e fn) -> hit x fn' (if has (fn 11) 2 then x else [], e).
Proof. exact found_again. Qed.
Print Assumptions C78_again.
Example C78_example : dir_ok d0 l0 /\ names_ok l0.
Proof.
  split; [exact d0_ok|]. constructor; cbn; repeat constructor. cbn. congruence.
Qed.

(* A file made with a name of up to 255 bytes is listed with it, in its own case. *)
Theorem C79_listed : forall cs last fn e blk buf, Forall name_char cs -> (1 <= length (utf16 cs) <= 255)%nat -> clean (utf16 cs) -> form (utf16 cs) last fn ->
  e 12 = Z.land (fn 11) 24 -> (has (fn 11) 1 = false -> short_same e fn) ->
  (if has (fn 11) 2 then blk <> NONE /\ holds buf (utf16 cs) else blk = NONE) -> zlen (utf8 cs) <= 255 ->
  exists alt, file_names e blk buf = Ok (utf8 cs, alt).
Proof. exact listed. Qed.
Print Assumptions C79_listed.
(* With a longer one it is listed with its alias. *)
Theorem C79_long_refuted : forall cs e blk buf, Forall (fun c => scalar c /\ c <> 0) cs -> (length (utf16 cs) <= 255)%nat -> holds buf (utf16 cs) -> blk <> NONE -> bytes e -> 255 < zlen (utf8 cs) ->
  exists fname alt, file_names e blk buf = Ok (fname, alt) /\ fname <> utf8 cs /\ zlen fname <= 12.
Proof. exact listed_alias. Qed.
Print Assumptions C79_long_refuted.
(* A file of another system may be listed with a name it cannot be found with. *)
Theorem C79_foreign_refuted : dir_ok d1 [File [] foreign] /\ exists j b fname alt, file_names foreign NONE buf0 = Ok (fname, alt) /\
  match create_name (fname ++ [0]) buf0 with Ok (Some (_, fn, lfn)) => dir_find d1 fn lfn = Ok (D_NO_FILE, j, b) | _ => False end.
Proof. exact (conj d1_ok foreign_lost). Qed.
Print Assumptions C79_foreign_refuted.
(* Any bytes in the table: reading gives a terminated name, and listing stays inside the
   buffers. *)
Theorem C79_read : forall d buf i blk, 1 <= cap d <= MAXENT -> (forall i, 0 <= i < cap d -> bytes (tab d i)) -> units buf -> 0 <= i < cap d ->
  exists r j b buf', dir_read d buf i blk = Ok (r, j, b, buf') /\ 0 <= j < cap d /\ units buf' /\ (r = D_OK -> b <> NONE -> exists k, 0 <= k < 256 /\ buf' k = 0).
Proof. exact read_nul. Qed.
Print Assumptions C79_read.
Theorem C79_safe : forall e blk buf, bytes e -> units buf -> (blk <> NONE -> exists j, 0 <= j < 256 /\ buf j = 0) ->
  exists fname alt, file_names e blk buf = Ok (fname, alt) /\ 1 <= zlen fname <= 255 /\ zlen alt <= 12.
Proof. exact names_safe. Qed.
Print Assumptions C79_safe.
(* Aal.TXT with NTres, and a long name with characters of two units *)
Example C79_example : file_names (in_buf [65; 65; 76; 32; 32; 32; 32; 32; 84; 88; 84; 32; 8]) NONE buf0 = Ok ([97; 97; 108; 46; 84; 88; 84], [65; 65; 76; 46; 84; 88; 84]) /\
  file_names (in_buf [65; 126; 49; 32; 32; 32; 32; 32; 32; 32; 32; 32; 0]) 0 (in_buf [246; 55357; 56832; 0]) = Ok ([195; 182; 240; 159; 152; 128], [65; 126; 49]).
Proof. vm_compute. auto. Qed.
Example C79_many : let cs := repeat 246 200 in Forall (fun c => scalar c /\ c <> 0) cs /\ (length (utf16 cs) <= 255)%nat /\ 255 < zlen (utf8 cs).
Proof.
  cbv zeta. split; [|vm_compute; split; [lia|reflexivity]]. rewrite Forall_forall. intros c C. apply repeat_spec in C as ->. unfold scalar. lia.
Qed.
(* Made, found and listed: Oel (with O umlaut) .txt; README.txt would clash and is the file found. *)
Example C79_made : exists d blk buf, make d0 [195; 150; 108; 46; 116; 120; 116; 0] = Ok (d, 3, blk, buf) /\ option_map fst (match file_names (tab d (blk + 1)) blk buf with Ok r => Some r | _ => None end) = Some [195; 150; 108; 46; 116; 120; 116].
Proof.
  assert (Q : (match make d0 [195; 150; 108; 46; 116; 120; 116; 0] with Ok (d, r, blk, buf) => Some (r, option_map fst (match file_names (tab d (blk + 1)) blk buf with Ok r => Some r | _ => None end)) | _ => None end) = Some (3, Some [195; 150; 108; 46; 116; 120; 116])) by (vm_compute; reflexivity).
  destruct (make d0 _) as [[[[d r] blk] buf]| |]; try discriminate. injection Q as -> Q. eauto.
Qed.
