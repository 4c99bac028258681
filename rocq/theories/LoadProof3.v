(* A small program file, and damaged variants of it. *)
From Verif Require Import Base Arr CrcSpec LoadModel LoadSpec LoadProof LoadProof2.
Open Scope Z_scope.

(* 32-bit ARM: null section, .rel.plt, .dynsym, .dynstr; imports puts (undefined)
   and main (at 0x1000). *)
Definition small_file : list Z :=
  [127; 69; 76; 70; 1; 1; 1; 0; 0; 0; 0; 0; 0; 0; 0; 0; 3; 0; 40; 0; 1; 0; 0; 0; 0; 16; 0; 0; 0; 0; 0; 0; 52; 0;
   0; 0; 0; 0; 0; 0; 52; 0; 0; 0; 0; 0; 40; 0; 4; 0; 0; 0; 0; 0; 0; 0; 0; 0; 0; 0; 0; 0; 0; 0; 0; 0; 0; 0; 0; 0;
   0; 0; 0; 0; 0; 0; 0; 0; 0; 0; 0; 0; 0; 0; 4; 0; 0; 0; 0; 0; 0; 0; 0; 0; 0; 0; 9; 0; 0; 0; 66; 0; 0; 0; 0; 0;
   0; 0; 212; 0; 0; 0; 16; 0; 0; 0; 2; 0; 0; 0; 0; 0; 0; 0; 4; 0; 0; 0; 8; 0; 0; 0; 0; 0; 0; 0; 11; 0; 0; 0; 2;
   0; 0; 0; 0; 0; 0; 0; 228; 0; 0; 0; 48; 0; 0; 0; 3; 0; 0; 0; 0; 0; 0; 0; 4; 0; 0; 0; 16; 0; 0; 0; 0; 0; 0; 0;
   3; 0; 0; 0; 2; 0; 0; 0; 0; 0; 0; 0; 20; 1; 0; 0; 11; 0; 0; 0; 0; 0; 0; 0; 0; 0; 0; 0; 4; 0; 0; 0; 0; 0; 0; 0;
   0; 0; 0; 0; 22; 1; 0; 0; 4; 0; 0; 0; 22; 2; 0; 0; 0; 0; 0; 0; 0; 0; 0; 0; 0; 0; 0; 0; 0; 0; 0; 0; 1; 0; 0; 0;
   0; 0; 0; 0; 0; 0; 0; 0; 0; 0; 0; 0; 6; 0; 0; 0; 0; 16; 0; 0; 0; 0; 0; 0; 0; 0; 1; 0; 0; 112; 117; 116; 115; 0;
   109; 97; 105; 110; 0].

Definition puts : list Z := [112; 117; 116; 115].
Definition small_chain : list table := [[([109; 97; 105; 110], 5)]; [(puts, 4711); (puts, 42)]].

Lemma bytes_b f : forallb (fun c => (0 <=? c) && (c <? 256)) f = true -> Forall byte f.
Proof. rewrite forallb_forall, Forall_forall. intros H x I. specialize (H x I). unfold byte. lia. Qed.

Lemma small_bytes : Forall byte small_file.
Proof. apply bytes_b. vm_compute. reflexivity. Qed.

Lemma small_imports : program false 40 small_file [Named puts; Defined 4096].
Proof.
  apply program_iff; [exact small_bytes|].
  exists 92, 2. split; vm_compute; reflexivity.
Qed.

Lemma small_run : load_invoke false 40 small_file small_chain = Ok (inr (Called 4096 [Extern 4711; Local 4096])).
Proof. vm_compute. reflexivity. Qed.

Lemma small_lost : load_invoke false 40 small_file [[(puts, 0)]] = Ok (inr (Missing [puts])).
Proof. vm_compute. reflexivity. Qed.

(* The same file with the section headers said to start far outside (e_shoff at
   byte 32). *)
Definition far_file : list Z := firstn 35 small_file ++ 127 :: skipn 36 small_file.
(* Entry size 0 in the relocation section (byte 52 + 40 + 36). *)
Definition zero_file : list Z := firstn 128 small_file ++ 0 :: skipn 129 small_file.
(* A name offset outside the file (symbol 1 at byte 244). *)
Definition wild_file : list Z := firstn 245 small_file ++ 127 :: skipn 246 small_file.

Lemma outside : exists f, Forall byte f /\ good_header false 40 f /\ (forall chain, load_invoke false 40 f chain = Ub) /\
  exists g, good_header false 40 g /\ Forall byte g /\ firstn 128 g = firstn 128 f /\ length g = length f /\
    (forall chain, load_invoke false 40 g chain <> Ub).
Proof.
  assert (G : good_header false 40 zero_file /\ good_header false 40 small_file).
  { unfold good_header, member. cbn [ehdr w sum firstn fold_right Nat.add nth].
    split; refine (conj _ (conj _ (conj _ (conj _ (conj _ (conj _ (conj _ (conj _ _))))))));
      (apply field_iff; [apply Nat.ltb_lt; reflexivity|]; vm_compute; reflexivity). }
  exists zero_file. split; [apply bytes_b; vm_compute; reflexivity|]. split; [apply G|]. split; [intros; vm_compute; reflexivity|].
  exists small_file. split; [apply G|]. split; [exact small_bytes|]. split; [vm_compute; reflexivity|]. split; [reflexivity|].
  intros chain E. assert (exists e, entry_point false small_file e) as (e & P).
  { exists 4096. unfold entry_point, member. apply field_iff; [apply Nat.ltb_lt; reflexivity|]. vm_compute. reflexivity. }
  destruct (program_runs false 40 small_file _ e chain small_bytes small_imports P) as [(g & R & _)|(l & R & _)]; congruence.
Qed.

Lemma far_ub : forall chain, load_invoke false 40 far_file chain = Ub.
Proof. intros. vm_compute. reflexivity. Qed.
Lemma wild_ub : forall chain, load_invoke false 40 wild_file chain = Ub.
Proof. intros. vm_compute. reflexivity. Qed.
