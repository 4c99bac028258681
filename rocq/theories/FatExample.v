(* Two small volumes. *)
From Coq Require Import ZifyClasses ZifyInst ZifyBool.
From Verif Require Import Base FatModel FatSpec.
Open Scope Z_scope.
Ltac Zify.zify_post_hook ::= Z.div_mod_to_equations.

(* FAT12 on 2 x 2 sectors of 512 bytes: entry 341 crosses a sector boundary. *)
Definition floppy : geo := mkGeo 512 1 2 2 400 FAT12 1 20 0 420.
Definition card : geo := mkGeo 512 32 1 2 120 FAT32 8 34 0 1000.
Definition blank : vol := mkVol (fun s o => 0) (fun o => 0) 0 false 398 4294967295 0.
Definition blank32 : vol := mkVol (fun s o => if (32 <=? s) && (s <? 34) then 240 else 0) (fun o => 0) 4294967295 false 4294967295 4294967295 0.

Lemma floppy_ok : geo_ok floppy.
Proof. constructor; cbn; lia. Qed.
Lemma card_ok : geo_ok card.
Proof. constructor; cbn; lia. Qed.
Lemma blank_ok : vol_ok floppy blank.
Proof.
  constructor; cbn; unfold vbyte; intros; try lia; auto.
  left. unfold mine, second; cbn. lia.
Qed.
Lemma blank32_ok : vol_ok card blank32.
Proof.
  constructor; cbn; unfold vbyte, in_fat, mine, second; cbn; intros; try lia; auto.
  - destruct ((32 <=? s) && (s <? 34)); lia.
  - now replace ((32 <=? s + 1) && (s + 1 <? 34)) with true by lia; replace ((32 <=? s) && (s <? 34)) with true by lia.
Qed.
Lemma blank_entry c : entry floppy blank c = 0.
Proof. unfold entry, entry_of, fat_byte, view. cbn. destruct (Z.even c); destruct (1 + _ =? 0), (1 + _ =? 0); reflexivity. Qed.

Lemma blank_owns : owns floppy blank [[]; []].
Proof.
  constructor.
  - exact blank_ok.
  - constructor; [exact I|]. constructor; [exact I|constructor].
  - constructor.
  - intros c _ _. left. apply blank_entry.
  - left. vm_compute. reflexivity.
  - cbn. lia.
Qed.
