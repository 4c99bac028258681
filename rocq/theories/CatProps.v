(* C42, C74: cat and f_gets. *)
From Verif Require Import Base CatModel CatSpec CatProof.
Open Scope Z_scope.

(* Any UTF-8 text without NUL, of any length: exactly the text with its carriage
   returns, whatever the chunks. *)
Theorem C42_cat : forall cs, Forall char_ok cs -> ~ In 0 cs -> exists out, cat (text cs) = Ok out /\ with_cr (text cs) out.
Proof. exact cat_ok. Qed.
Print Assumptions C42_cat.
Theorem C42_only_one : forall s a b, with_cr s a -> with_cr s b -> a = b.
Proof. exact with_cr_fun. Qed.
Print Assumptions C42_only_one.
Theorem C42_nothing_else_changed : forall cs out, Forall char_ok cs -> ~ In 0 cs -> cat (text cs) = Ok out ->
  exists e, (e = [] \/ e = [10]) /\ filter (fun c => negb (c =? 13)) out = filter (fun c => negb (c =? 13)) (text cs) ++ e.
Proof. exact cat_strip. Qed.
Print Assumptions C42_nothing_else_changed.
(* Also for a line feed printed next. *)
Theorem C42_left_margin : forall cs out, Forall char_ok cs -> ~ In 0 cs -> cat (text cs) = Ok out -> no_staircase (out ++ [10]).
Proof. exact cat_stairs. Qed.
Print Assumptions C42_left_margin.

(* A NUL hides the rest of its line. *)
Theorem C42_nul_refuted : exists a b out, ~ In b [0; 10; 13] /\ cat (a ++ [0; b; 10]) = Ok out /\ ~ In b out.
Proof. exact cat_nul. Qed.
Print Assumptions C42_nul_refuted.
(* A stray byte takes two ASCII characters with it. *)
Theorem C42_latin1_refuted : exists out, cat [233; 10; 97; 98; 10] = Ok out /\ ~ In 97 out.
Proof. exact cat_latin1. Qed.
Print Assumptions C42_latin1_refuted.
(* No carriage return for blank lines. *)
Theorem C42_every_line_refuted : exists out, cat [97; 10; 10; 98; 10] = Ok out /\ out = [97; 13; 10; 10; 98; 13; 10].
Proof. exact cat_blank. Qed.
Print Assumptions C42_every_line_refuted.

Example C42_example : Forall char_ok [233; 10; 128512] /\ cat (text [233; 10; 128512]) = Ok [195; 169; 13; 10; 240; 159; 152; 128; 13; 10].
Proof. split; [repeat (constructor; [unfold char_ok; lia|]); constructor | vm_compute; reflexivity]. Qed.

(* Any bytes, any buffer of at least 5: nothing is stored outside, and an empty
   result means the end. *)
Theorem C74_in_bounds : forall size, (5 <= size)%nat -> forall fuel out inp, (length inp < fuel)%nat -> (length out < size)%nat ->
  exists o r, gets fuel size out inp = Ok (o, r) /\ (length o < size)%nat /\ (length r <= length inp)%nat /\
    (out = [] -> o <> [] -> (length r < length inp)%nat).
Proof. exact gets_safe. Qed.
Print Assumptions C74_in_bounds.
Theorem C74_text_unchanged : forall size, (5 <= size)%nat -> forall fuel out cs, Forall char_ok cs -> (length cs < fuel)%nat -> (length out < size)%nat ->
  exists a b, cs = a ++ b /\ gets fuel size out (text cs) = Ok (out ++ text a, text b) /\
    (cs <> [] -> (length out < size - 4)%nat -> a <> []).
Proof. exact gets_text. Qed.
Print Assumptions C74_text_unchanged.
Theorem C74_any_file : forall file, exists out, cat file = Ok out.
Proof. exact cat_safe. Qed.
Print Assumptions C74_any_file.
Example C74_example : gets 9 6 [] (text [97; 233; 98]) = Ok (text [97; 233], text [98]).
Proof. vm_compute. reflexivity. Qed.
