(* Volume labels. *)
From Verif Require Import Base CrcSpec FutfModel FutfSpec LfnModel LfnSpec FdirModel FdirSpec.
Open Scope Z_scope.

(* The characters a label may have. *)
Definition good (c : Z) : Prop := 32 <= c <= 126 /\ ~ In c [34; 42; 43; 44; 46; 47; 58; 59; 60; 61; 62; 63; 91; 92; 93; 124].
Definition capital (c : Z) : Z := if (97 <=? c) && (c <=? 122) then c - 32 else c.
Definition good_text (s : list Z) : Prop := Forall good s /\ (length s <= 11)%nat.

(* A string which is the text s up to a control character, mostly its NUL. *)
Definition says (p s : list Z) : Prop :=
  exists c rest, p = s ++ c :: rest /\ Forall (fun b => 32 <= b < 256) s /\ 0 <= c < 32 /\ Forall byte rest /\ In 0 (c :: rest).

(* t is s without the spaces at its end. *)
Definition snipped (s t : list Z) : Prop := exists n, s = t ++ repeat 32 n /\ forall t', t <> t' ++ [32].

(* Entry e has the text t, filled up with spaces. *)
Definition names (e : Z -> Z) (t : list Z) : Prop := forall k, 0 <= k < 11 -> e k = nth (Z.to_nat k) t 32.

(* The label of a root directory is the first label entry; one which starts with a dot
   does not count. *)
Definition plain (x : item) : Prop := match x with Label e => e 0 = 46 | _ => True end.
Definition unlabelled (l : list item) : Prop := Forall plain l.
Definition labelled (l l1 : list item) (e : Z -> Z) (l2 : list item) : Prop :=
  l = l1 ++ Label e :: l2 /\ unlabelled l1 /\ e 0 <> 46.

(* The text of entry e as it is shown: every byte as a Unicode character. *)
Definition chars (e : Z -> Z) : list Z := map e [0; 1; 2; 3; 4; 5; 6; 7; 8; 9; 10].
Definition shows (e : Z -> Z) (t : list Z) : Prop :=
  (exists k, 0 <= k < 11 /\ e k = 0) /\ t = [] \/
  (forall k, 0 <= k < 11 -> e k <> 0) /\ snipped (concat (map utf8_of (chars e))) t.
