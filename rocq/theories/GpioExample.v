(* Examples for gpio and echo. *)
From Coq Require Import String Ascii Lia.
From Verif Require Import Base ExecModel CliModel CliSpec GpioModel GpioSpec GpioProof2.
Open Scope Z_scope.

(* echo one -n two *)
Definition sample : list word := [W (str "one"); N 0; W (str "-"); W (str "two")].
Example sample_ok : Forall word_ok sample /\ (weight sample < 9)%nat /\ map text sample = [str "one"; str "-n"; str "-"; str "two"] /\
  join (words sample) = str "one - two" /\ has_n sample = true.
Proof. repeat split; try (repeat constructor; cbn; lia); try (left; cbn; lia); try reflexivity. Qed.
Example sample_result : cmd_echo 9 (str "echo" :: map text sample) = Ok (str "one - two").
Proof. vm_compute. reflexivity. Qed.

(* gpio 1=1 0-2 pu 0x4-05 info *)
Definition asked : list (list Z) := [str "1=1"; str "0-2"; str "pu"; str "0x4-05"; str "info"].
Definition wanted : list act := [Put 1 1 1; Get 0 2; Mode PU; Conf 4 5; Info].
Lemma digit9 base d : 0 <= d <= 9 -> d < base -> reads base [48 + d] d.
Proof. intros D B. replace d with (0 * base + d) at 2 by lia. apply (R_more base [] 0 (48 + d) d); [constructor|left; lia|exact B]. Qed.
Example asked_ok : Forall2 spelled asked wanted /\ allowed GETSET wanted.
Proof.
  split.
  - repeat constructor.
    + apply (S_put [49] [49]); [apply T_one|]; (apply N_dec; [lia|apply (digit9 10 1); lia]).
    + apply (T_range [48] [50]); [apply N_oct; constructor|apply N_dec; [lia|apply (digit9 10 2); lia]].
    + apply (T_range [48; 120; 52] [48; 53]); [apply N_hex; [now left|apply (digit9 16 4); lia]|apply N_oct, (digit9 8 5); lia].
  - cbn. unfold pins. repeat split; try lia; discriminate.
Qed.
Example asked_result : exists b o, gpio_main 9 low idle (str "gpio" :: asked) = Ok (b, o) /\
  map (fun p => level (b p)) [0; 1; 2] = [false; true; false] /\ map (fun p => (oe (b p), pu (b p))) [3; 4; 5; 6] = [(true, false); (false, true); (false, true); (true, false)] /\
  firstn 6 o = str " 0 1 0".
Proof. eexists. eexists. split; [vm_compute; reflexivity|]. vm_compute. auto. Qed.
