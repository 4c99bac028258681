From Coq Require Import String Ascii.
From Verif Require Import Base PrintfModel PrintfSpec PrintfProof PrintfProof2 PrintfProof3 PrintfProof4.
Open Scope string_scope. Open Scope list_scope. Open Scope Z_scope.
Definition w (s : string) : list Z := map (fun c => Z.of_nat (nat_of_ascii c)) (list_ascii_of_string s).
(* a strtol for decimal digits alone *)
Definition dec : strtol_t := fun a => if forallb (fun d => (48 <=? d) && (d <=? 57)) a then (fold_left (fun n d => n * 10 + (d - 48)) a 0, length a, false) else (0, 0%nat, false).
Definition go (args : list string) : res (list atom * Z) := printf_main 50 dec (map w args).

Lemma nz s : forallb (fun b => negb (b =? 0)) s = true -> Forall (fun b => b <> 0) s.
Proof. intros H. rewrite forallb_forall in H. apply Forall_forall. intros x I. specialize (H x I). lia. Qed.
(* %*.3d of %s%%: %c and a new line *)
Definition ex1 : list piece := [Cv [45] Star (Num (w "3")) 100; Lit 32; Cv [] None_ None_ 115; Pct; Lit 58; Cv [] None_ None_ 99; Lit 10].
Definition out1 : list atom := [Conv [45] (Some 5) (Some 3) 100 (VLong 42); Byte 32; Conv [] None None 115 (VStr (w "total")); Byte 37; Byte 58; Conv [] None None 99 (VChar 120); Byte 10].
Ltac escs := repeat first [apply esc_end | apply esc_char; [discriminate|] | eapply (esc_letter 110 10); [cbn; tauto|]].
Ltac digs := repeat constructor; unfold isdigit; lia.
Ltac goodp := cbn [good]; first [exact I | lia | split; [repeat constructor; unfold isflag; cbn; lia|]; split; [intros ? Q; discriminate|]; split; [intros ? Q; first [discriminate | injection Q as <-; vm_compute; repeat constructor; discriminate]|unfold integer, floating; cbn; lia]].
Lemma once_example : Forall (fun b => b <> 0) (w "%-*.3d %s%%:%c\n") /\ escaped (w "%-*.3d %s%%:%c\n") (format ex1) /\ Forall good ex1 /\ fits 0 ex1 /\ prints dec ex1 (map w ["5"; "42"; "total"; "xyz"]%string) out1 [] /\
  go ["%-*.3d %s%%:%c\n"; "5"; "42"; "total"; "xyz"] = Ok (out1, 0).
Proof.
  split; [apply nz; reflexivity|]. split; [vm_compute; escs|]. split.
  - unfold ex1. repeat (apply Forall_cons; [goodp|]). constructor.
  - split; [cbn; unfold integer; cbn; lia|]. split; [|reflexivity]. unfold ex1, out1. eapply pr_cv; [eapply sz_star; [eapply tk_arg; apply me_number; [right; right; cbn; unfold isdigit; lia|reflexivity]|lia|lia]|apply sz_num|apply va_int; [unfold integer; cbn; tauto|]; apply tk_arg; apply me_number; [right; right; cbn; unfold isdigit; lia|reflexivity]|].
    apply pr_lit. eapply pr_cv; [apply sz_none..|apply va_str|]. apply pr_pct, pr_lit. eapply pr_cv; [apply sz_none..| |]. { apply (va_char dec (w "xyz")). } apply pr_lit, pr_end.
Qed.
(* %s=%d and a new line *)
Definition ex2 : list piece := [Cv [] None_ None_ 115; Lit 61; Cv [] None_ None_ 100; Lit 10].
Definition row (s : string) (n : Z) : list atom := [Conv [] None None 115 (VStr (w s)); Byte 61; Conv [] None None 100 (VLong n); Byte 10].
Lemma many_example : Forall (fun b => b <> 0) (w "%s=%d\n") /\ escaped (w "%s=%d\n") (format ex2) /\ Forall good ex2 /\ fits 0 ex2 /\ ~ In Pct ex2 /\ repeats dec ex2 (map w ["a"; "1"; "b"; "'x"; "c"]%string) (row "a" 1 ++ row "b" 120 ++ row "c" 0) /\
  go ["%s=%d\n"; "a"; "1"; "b"; "'x"; "c"] = Ok (row "a" 1 ++ row "b" 120 ++ row "c" 0, 0).
Proof.
  split; [apply nz; reflexivity|]. split; [vm_compute; escs|]. split.
  - unfold ex2. repeat (apply Forall_cons; [goodp|]). constructor.
  - split; [cbn; unfold integer; cbn; lia|]. split; [unfold ex2; cbn; intuition discriminate|]. split; [|reflexivity].
    assert (H : exists fl w p c, In (Cv fl w p c) ex2) by (exists [], None_, None_, 115; left; reflexivity).
    apply (re_more dec ex2 _ (row "a" 1) (map w ["b"; "'x"; "c"])); [|discriminate|exact H|apply (re_more dec ex2 _ (row "b" 120) (map w ["c"])); [|discriminate|exact H|apply re_last]].
    + eapply pr_cv; [apply sz_none..|apply va_str|]. apply pr_lit. eapply pr_cv; [apply sz_none..|apply va_int; [unfold integer; cbn; tauto|]; apply tk_arg; apply me_number; [right; right; cbn; unfold isdigit; lia|reflexivity]|]. apply pr_lit, pr_end.
    + eapply pr_cv; [apply sz_none..|apply va_str|]. apply pr_lit. eapply pr_cv; [apply sz_none..|apply va_int; [unfold integer; cbn; tauto|]; apply tk_arg; apply (me_quote dec 39 120 []); auto|]. apply pr_lit, pr_end.
    + eapply pr_cv; [apply sz_none..|apply va_str|]. apply pr_lit. eapply pr_cv; [apply sz_none..|apply va_int; [unfold integer; cbn; tauto|apply tk_none]|]. apply pr_lit, pr_end.
Qed.
Lemma plain_example : Forall (fun b => b <> 0) (w "hi\n") /\ escaped (w "hi\n") [104; 105; 10] /\ Forall (fun b => b <> 0 /\ b <> 37) [104; 105; 10] /\ go ["hi\n"; "x"] = Ok ([Byte 104; Byte 105; Byte 10; Msg Missing []], 1).
Proof. split; [apply nz; reflexivity|]. split; [vm_compute; escs|]. split; [repeat constructor; lia|reflexivity]. Qed.
Lemma escape_example : Forall (fun b => b <> 0) (w "a\tb\0101\\\q\") /\ escaped (w "a\tb\0101\\\q\") ([97; 9; 98] ++ w "" ++ [8; 49; 92; 113; 92]).
Proof.
  split; [apply nz; reflexivity|]. vm_compute. apply esc_char; [discriminate|]. eapply (esc_letter 116 9); [cbn; tauto|]. apply esc_char; [discriminate|].
  change 8 with (octal_number [48; 49; 48] mod 256). apply (esc_octal [48; 49; 48]); [discriminate|repeat constructor; unfold octal_digit; lia|auto|auto|]. apply esc_char; [discriminate|]. apply esc_other; [cbn; lia|unfold octal_digit; lia|]. apply esc_other; [cbn; lia|unfold octal_digit; lia|]. apply esc_last.
Qed.

(* --- what goes wrong ----------------------------------------------------------------------- *)
Lemma reuse_refuted : forall strtol, (forall d, 49 <= d <= 57 -> strtol [d] = (d - 48, 1%nat, false)) -> forall n,
  printf_main (8 + n) strtol (map w ["%d%%\n"; "1"; "2"]%string) = Ok ([Conv [] None None 100 (VLong 1); Byte 37; Byte 10; Conv [] None None 100 (VLong 2); Msg Wrong []], 1).
Proof.
  intros strtol H n. rewrite (main_ext strtol dec); [vm_compute; reflexivity|]. repeat constructor; vm_compute; [apply (H 49)|apply (H 50)]; lia.
Qed.
Lemma capital_refuted : forall strtol, strtol (w "255") = (255, 3%nat, false) -> forall n, printf_main (3 + n) strtol (map w ["%X"; "255"]) = Ok ([Conv [] None None 120 (VLong 255)], 0).
Proof. intros strtol H n. rewrite (main_ext strtol dec); [vm_compute; reflexivity|]. repeat constructor; rewrite H; reflexivity. Qed.
Lemma width_zero : forall strtol, strtol (w "0") = (0, 1%nat, false) -> strtol (w "5") = (5, 1%nat, false) -> forall n, printf_main (S n) strtol (map w ["%*d"; "0"; "5"]) = Ub.
Proof. intros strtol H1 H2 n. rewrite (main_ext strtol dec); [vm_compute; reflexivity|]. repeat constructor; [rewrite H1|rewrite H2]; reflexivity. Qed.
Lemma width_large : forall strtol, strtol (w "70000") = (70000, 5%nat, false) -> forall n, printf_main (S n) strtol (map w ["%*d"; "70000"]) = Ub.
Proof. intros strtol H n. rewrite (main_ext strtol dec); [vm_compute; reflexivity|]. repeat constructor; rewrite H; reflexivity. Qed.
