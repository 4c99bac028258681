(* Examples for format, mount, free and vol -t. *)
From Coq Require Import String Ascii Lia.
From Verif Require Import Base ExecModel DirModel FpatSpec EditSpec DriveModel DriveSpec DriveProof DriveProof2.
Open Scope Z_scope.

(* format SD: answered with n, backspace, Yes *)
Definition keys : list Z := [110; 8; 89; 101; 115; 13].
Example format_case : selects 0 (str "SD:") 1 /\ few keys /\ entered keys = true /\ line_of keys = str "Yes" /\ agreed (line_of keys) = true.
Proof.
  split; [left; exists (str "SD"); split; [reflexivity|]; split; [repeat constructor; discriminate|]; right; split; [reflexivity|]; right; reflexivity|].
  split; [left; cbn; lia|]. repeat split.
Qed.
Example format_result : exists s, run 0 (fun _ => Some (Disk (str "SU04G") 3980394496)) (fun _ _ => None) (repeat 7 32) (repeat 7 128) 5 [str "format"; str "SD:"] keys = Ok s /\
  made s = [(str "SD:", 2)] /\ over s = true.
Proof. eexists. split; [vm_compute; reflexivity|]. repeat split. Qed.
Example no_drive : (forall d, ~ selects 0 (str "sd:/x") d) /\ Forall (fun c => 0 < c < 256) (str "sd:/x").
Proof.
  split; [|repeat constructor]. intros d [(pre & E & _ & _)|[E _]]; [|discriminate]. apply (f_equal (@rev Z)) in E. rewrite rev_app_distr in E. discriminate.
Qed.
Example table_case : fs_ok (Info 3 32768 121000 90000 90000) /\ show 1 (Some (Info 3 32768 121000 90000 90000)) =
  str "   sd:  FAT-32    3872000    992000   2880000    26%" ++ [13; 10].
Proof. split; [|reflexivity]. unfold fs_ok. cbn. repeat split; try lia. right. exists 5. split; [lia|reflexivity]. Qed.
Example small_case : fs_ok (Info 1 512 2000 999 999) /\ show 0 (Some (Info 1 512 2000 999 999)) = str "flash:  FAT-12       1000       500       499    50%" ++ [13; 10].
Proof. split; [|reflexivity]. unfold fs_ok. cbn. repeat split; try lia. Qed.
Example free_case : print_value (str " Free heap") 201056 = str " Free heap: 201,056 bytes" ++ [13; 10].
Proof. reflexivity. Qed.
Example mbytes_case : mbytes 1572864 = str "1.5".
Proof. reflexivity. Qed.
Example speed_case : let f := Info 2 4096 1000 600 600 in 0 <= f_bavail f < 2 ^ 32 /\ 0 <= f_bsize f < 2 ^ 20 /\ 1048576 <= f_bavail f * f_bsize f /\
  snd (test_speed (fun _ => false) f) = Tested 2.
Proof. cbn. repeat split; lia. Qed.
