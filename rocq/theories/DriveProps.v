(* C134-C138 *)
From Coq Require Import String.
From Verif Require Import Base ExecModel DirModel EditSpec DriveModel DriveSpec DriveProof DriveProof2.
Open Scope Z_scope.

Theorem C134_format : forall curr identify mkfs reply junk, 0 <= curr < 2 -> length reply = 32%nat -> length junk = 128%nat ->
  forall name d i keys prog fuel, selects curr name d -> identify d = Some i -> Forall (fun k => 0 <= k < 65536) keys -> few keys -> prog <> [45; 45] -> (1 < fuel)%nat ->
  exists s, cmd_format curr identify mkfs reply junk fuel [prog; name] keys = Ok s /\ over s = entered keys /\
    made s = (if entered keys && agreed (line_of keys) then [(name, format_of d)] else []) /\ exists more, shown s = question d i ++ more.
Proof. exact format_ok. Qed.
Print Assumptions C134_format.

Theorem C134_no_drive : forall curr identify mkfs reply junk, 0 <= curr < 2 ->
  forall name keys prog fuel, Forall (fun c => 0 < c < 256) name -> (forall d, ~ selects curr name d) -> hd 0 name <> 45 -> prog <> [45; 45] -> (1 < fuel)%nat ->
  cmd_format curr identify mkfs reply junk fuel [prog; name] keys = Ok (Done (name ++ str ": Invalid drive name" ++ [13; 10; 13; 10]) [] true).
Proof. exact format_none. Qed.
Print Assumptions C134_no_drive.

Theorem C134_one_name : forall curr identify mkfs reply junk names keys prog fuel, length names <> 1%nat -> Forall (fun n => hd 0 n <> 45) names -> prog <> [45; 45] -> (length names < fuel)%nat ->
  cmd_format curr identify mkfs reply junk fuel (prog :: names) keys = Ok (Done format_usage [] true).
Proof. exact format_count. Qed.
Print Assumptions C134_one_name.

Theorem C135_reply_refuted : exists keys, Forall (fun k => 0 <= k < 65536) keys /\
  cmd_format 0 (fun _ => Some (Disk [] 0)) (fun _ _ => None) (repeat 0 32) (repeat 0 128) 5 [str "format"; str "sd:"] keys = Ub.
Proof. exact long_reply. Qed.
Print Assumptions C135_reply_refuted.

Theorem C136_row : forall d f, 0 <= d <= 1 -> fs_ok f -> exists p, show d (Some f) =
    row d f (kbytes (f_blocks f) (f_bsize f)) (kbytes (f_blocks f - f_bfree f) (f_bsize f)) (kbytes (f_bfree f) (f_bsize f)) p /\
  2 * p * f_blocks f <= 200 * (f_blocks f - f_bfree f) + f_blocks f < 2 * (p + 1) * f_blocks f /\ 0 <= p <= 100.
Proof. exact row_ok. Qed.
Print Assumptions C136_row.

Theorem C136_no_row : forall d, 0 <= d <= 1 -> show d None = str (if d =? 0 then "flash:     ---" else "   sd:     ---") ++ [13; 10].
Proof. exact row_none. Qed.
Print Assumptions C136_no_row.

Theorem C137_mbytes : forall n, 0 <= n < 2 ^ 52 -> exists a b, mbytes n = digits a ++ [46] ++ digits b /\ 0 <= a /\ 0 <= b <= 9 /\
  (10 * a + b) * 1048576 <= 10 * n < (10 * a + b + 1) * 1048576.
Proof. exact mbytes_ok. Qed.
Print Assumptions C137_mbytes.

Theorem C137_free : forall name size, 0 <= size < 1000000 -> exists a b, print_value name size = name ++ str ": " ++ a ++ b ++ str " bytes" ++ [13; 10] /\
  if size <? 1000 then a = digits size /\ b = [] else exists c, b = 44 :: c /\ length c = 3%nat /\ a ++ c = digits size.
Proof. exact free_ok. Qed.
Print Assumptions C137_free.

Theorem C138_speed : forall bad f, (forall k, bad k = false) -> 0 <= f_bavail f < 2 ^ 32 -> 0 <= f_bsize f < 2 ^ 20 -> 1048576 <= f_bavail f * f_bsize f ->
  exists mb, 1 <= mb <= 8 /\ mb * 1048576 <= f_bavail f * f_bsize f /\ (mb = 8 \/ f_bavail f * f_bsize f < (mb + 1) * 1048576) /\
  let n := Z.to_nat (256 * mb) in
  test_speed bad f = (COpen :: repeat CWrite n ++ CRewind :: repeat CRead n ++ [CClose; CUnlink], Tested mb).
Proof. exact speed_ok. Qed.
Print Assumptions C138_speed.

Theorem C138_left_refuted : ~ forall bad f cs r, test_speed bad f = (cs, r) -> r <> Cannot -> tidy cs.
Proof. exact speed_refuted. Qed.
Print Assumptions C138_left_refuted.
