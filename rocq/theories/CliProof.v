(* The loop over options. *)
From Coq Require Import Lia.
From Verif Require Import Base GetoptModel GetoptSpec GetoptProof CliModel CliSpec.
Open Scope Z_scope.

(* what the loop does with a list of results *)
Fixpoint fold_rounds {T} (handle : T -> Z -> option (list Z) -> res (round T)) (s : T) (l : list (Z * option (list Z))) : res (round T) :=
  match l with
  | [] => Ok (Go s)
  | (r, a) :: l => x <- handle s r a ;; match x with Go s => fold_rounds handle s l | Stop s => Ok (Stop s) end
  end.

Lemma options_getopts {T} shorts (handle : T -> Z -> option (list Z) -> res (round T)) argv : forall n l o o' o2 s fuel,
  getopts n argv (Some shorts) (Some longs) false o = Ok (l, o') -> getopt argv (Some shorts) (Some longs) false o' = Ok o2 -> o_ret o2 = -1 ->
  Forall (fun r => 0 <= fst r) l -> (n < fuel)%nat -> options fuel shorts handle argv s o = fold_rounds handle s l.
Proof.
  induction n as [|n IH]; intros l o o' o2 s fuel G E R F L; (destruct fuel as [|fuel]; [lia|]); cbn [options].
  - cbn [getopts] in G. injection G as <- <-. rewrite E. cbn [bind]. rewrite R. reflexivity.
  - cbn [getopts] in G. destruct (getopt argv (Some shorts) (Some longs) false o) as [o1| |]; try discriminate. cbn [bind] in *.
    destruct (getopts n argv (Some shorts) (Some longs) false o1) as [[l1 o3]| |] eqn:G1; try discriminate. cbn [bind] in G. injection G as <- <-.
    inversion F as [|? ? F1 F2]; subst. cbn [fst] in F1. rewrite (proj2 (Z.ltb_ge _ _) F1). cbn [fold_rounds].
    destruct (handle s (o_ret o1) (o_arg o1)) as [[s1|s1]| |]; cbn [bind]; try reflexivity. eapply IH; eauto. lia.
Qed.

Lemma options_items {T} tbl (handle : T -> Z -> option (list Z) -> res (round T)) prog its s fuel : tbl_ok tbl -> Forall (item_ok tbl longs) its -> prog <> [45; 45] ->
  Forall (fun r => 0 <= fst r) (flat_map (item_results longs) its) -> (length (flat_map (item_results longs) its) < fuel)%nat ->
  options fuel (shorts_string tbl) handle (prog :: flat_map item_words its) s opt0 = fold_rounds handle s (flat_map (item_results longs) its).
Proof.
  intros TO IO P F L. destruct (parse_all prog its [] false tbl longs false (or_introl eq_refl) TO IO P) as (o & o' & A & B & C).
  eapply options_getopts; eauto.
Qed.

(* --- echo --- *)

Definition item_of (w : word) : item := match w with W s => Plain s | N k => Shorts (repeat 110 k) 110 Absent end.
Definition echo_tbl : list (Z * kind) := [(104, No); (110, No)].

Lemma item_of_words w : item_words (item_of w) = [text w].
Proof. destruct w; reflexivity. Qed.
Lemma item_of_all ws : flat_map item_words (map item_of ws) = map text ws.
Proof. induction ws as [|w ws IH]; [reflexivity|]. cbn [map flat_map]. now rewrite item_of_words, IH. Qed.
Lemma item_of_ok w : word_ok w -> item_ok echo_tbl longs (item_of w).
Proof.
  destruct w as [s|k]; [exact (fun H => H)|]. intros _. cbn [item_of item_ok]. split; [apply Forall_forall; intros x I; apply repeat_spec in I; subst x; reflexivity|].
  exists No. now split.
Qed.

Lemma fold_rounds_app {T} (handle : T -> Z -> option (list Z) -> res (round T)) : forall l l' s, fold_rounds handle s (l ++ l') =
  (x <- fold_rounds handle s l ;; match x with Go s => fold_rounds handle s l' | Stop s => Ok (Stop s) end).
Proof.
  induction l as [|[r a] l IH]; intros l' s; [reflexivity|]. cbn [app fold_rounds]. destruct (handle s r a) as [[s1|s1]| |]; cbn [bind]; try reflexivity. apply IH.
Qed.
Lemma fold_n : forall k s, fold_rounds echo_round s (map (fun f => (f, None)) (repeat 110 k) ++ [(110, None)]) = Ok (Go (Echo true (count s) (written s))).
Proof.
  induction k as [|k IH]; intros s; [reflexivity|]. cbn [repeat map app fold_rounds]. change (echo_round s 110 None) with (Ok (Go (Echo true (count s) (written s)))). cbn [bind]. rewrite IH. reflexivity.
Qed.
Lemma item_of_results w : item_results longs (item_of w) = match w with W s => [(1, Some s)] | N k => map (fun f => (f, None)) (repeat 110 k) ++ [(110, None)] end.
Proof. destruct w; reflexivity. Qed.

Definition glue (started : bool) (ws : list (list Z)) : list Z := if started then flat_map (fun w => 32 :: w) ws else join ws.
Lemma join_cons w ws : join (w :: ws) = w ++ flat_map (fun w => 32 :: w) ws.
Proof.
  revert w. induction ws as [|x ws IH]; intros w; [cbn; now rewrite app_nil_r|]. change (join (w :: x :: ws)) with (w ++ [32] ++ join (x :: ws)). rewrite IH. reflexivity.
Qed.
Lemma fold_echo : forall ws s, 0 <= count s -> exists c, fold_rounds echo_round s (flat_map (item_results longs) (map item_of ws)) =
  Ok (Go (Echo (no_newline s || has_n ws) c (written s ++ glue (0 <? count s) (words ws)))).
Proof.
  induction ws as [|w ws IH]; intros s C.
  - exists (count s). cbn. destruct (0 <? count s); rewrite orb_false_r, app_nil_r; destruct s; reflexivity.
  - cbn [map flat_map]. rewrite fold_rounds_app, item_of_results. destruct w as [t|k].
    + cbn [fold_rounds].
      change (echo_round s 1 (Some t)) with (Ok (Go (Echo (no_newline s) (count s + 1) (written s ++ (if 0 <? count s then [32] else []) ++ t)))). cbn [bind fold_rounds].
      destruct (IH (Echo (no_newline s) (count s + 1) (written s ++ (if 0 <? count s then [32] else []) ++ t))) as [c E]; [cbn; lia|]. exists c. rewrite E. cbn [count no_newline written].
      rewrite (proj2 (Z.ltb_lt 0 (count s + 1))) by lia. unfold glue, has_n, words. cbn [existsb flat_map app]. fold (words ws). rewrite join_cons, <- !app_assoc.
      destruct (0 <? count s); reflexivity.
    + rewrite fold_n. cbn [bind]. destruct (IH (Echo true (count s) (written s))) as [c E]; [exact C|]. exists c. rewrite E. cbn [count no_newline written].
      unfold has_n. cbn [existsb]. rewrite orb_true_r. reflexivity.
Qed.
Lemma echo_ret ws : Forall (fun r => 0 <= fst r) (flat_map (item_results longs) (map item_of ws)).
Proof.
  apply Forall_forall. intros [r a] I. apply in_flat_map in I as (it & I1 & I2). apply in_map_iff in I1 as (w & <- & _). rewrite item_of_results in I2. cbn [fst].
  destruct w as [t|k]; [destruct I2 as [[= <- _]|[]]; lia|]. apply in_app_or in I2 as [I2|[[= <- _]|[]]]; [|lia]. apply in_map_iff in I2 as (x & [= <- _] & I2). apply repeat_spec in I2. lia.
Qed.
Lemma echo_len ws : length (flat_map (item_results longs) (map item_of ws)) = weight ws.
Proof.
  unfold weight. induction ws as [|w ws IH]; [reflexivity|]. cbn [map flat_map]. rewrite !app_length, IH, item_of_results. f_equal. destruct w as [t|k]; [reflexivity|].
  rewrite app_length, map_length, !repeat_length. cbn [length]. lia.
Qed.
Lemma echo_ok ws prog fuel : Forall word_ok ws -> prog <> [45; 45] -> (weight ws < fuel)%nat ->
  cmd_echo fuel (prog :: map text ws) = Ok (join (words ws) ++ if has_n ws then [] else [13; 10]).
Proof.
  intros F P L. unfold cmd_echo. rewrite <- item_of_all. change [104; 110] with (shorts_string echo_tbl). rewrite options_items.
  - destruct (fold_echo ws (Echo false 0 [])) as [c E]; [cbn; lia|]. rewrite E. reflexivity.
  - repeat constructor; discriminate.
  - apply Forall_forall. intros it I. apply in_map_iff in I as (w & <- & I). apply item_of_ok. rewrite Forall_forall in F. auto.
  - exact P.
  - apply echo_ret.
  - rewrite echo_len. exact L.
Qed.
