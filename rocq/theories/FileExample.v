(* Two open files on a small volume. *)
From Coq Require Import ZifyClasses ZifyInst ZifyBool.
From Verif Require Import Base FatModel FatSpec FatExample FatProof FatProof2 FatProof3 FatProof4 FatProof5 FatProof6 FileModel FileSpec FileProof8.
Open Scope Z_scope.

Lemma floppy_data : data_ok floppy.
Proof. constructor; cbn; lia. Qed.

Definition two : list fil := [opened 0 0 77 true true; opened 0 0 77 true true].
Definition empty : ifile := on_disk floppy blank [] 0.
Lemma two_ok : open_files floppy blank [[]; []] two [empty; empty].
Proof.
  constructor.
  - reflexivity.
  - exact blank_owns.
  - cbn. lia.
  - unfold apart, ours, in_cluster. cbn. intros (c & H1 & H2 & _). lia.
  - assert (F : file_ok floppy blank [] (opened 0 0 77 true true) empty).
    { apply (opened_ok floppy blank [] 0 77 true true); [exact floppy_ok|exact floppy_data|exact blank_ok|lia|cbn; lia|exact I]. }
    intros [|[|k]] f d; cbn.
    + intros [= <-] [= <-]. exact F.
    + intros [= <-] [= <-]. exact F.
    + destruct k; discriminate.
Qed.

Definition ramp (k : Z) : Z := k mod 251.
Definition rest (k : Z) : Z := (7 * k + 3) mod 256.
(* Both files grow in turns; the first is written over a sector boundary, sought back,
   read, extended by seeking and cut. *)
Definition turns : list (nat * call) :=
  [(0%nat, Write ramp 500); (1%nat, Write rest 600); (0%nat, Write ramp 600); (0%nat, Seek 498); (0%nat, Read 5);
   (1%nat, Seek 511); (1%nat, Write ramp 3); (1%nat, Seek 509); (1%nat, Read 8); (0%nat, Seek 1030); (0%nat, Truncate); (0%nat, Write rest 4);
   (0%nat, Seek 1027); (0%nat, Read 100); (1%nat, Read 1000); (1%nat, Seek 2000); (1%nat, Seek 0); (1%nat, Truncate); (1%nat, Read 5)].
Definition shown (a : answer) : list Z :=
  match a with
  | Got rb n r => n :: map rb (map Z.of_nat (seq 0 (Z.to_nat (Z.min n 8))))
  | Put_ n r => [n]
  | Done r => [code r]
  end.
