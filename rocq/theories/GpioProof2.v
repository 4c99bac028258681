(* Wrong command lines of gpio. *)
From Coq Require Import String Ascii Lia.
From Verif Require Import Base ExecModel DirModel GetoptModel CliModel GpioModel GpioSpec GpioProof.
Open Scope Z_scope.

Definition idle : board := fun _ => Pin 5 true false false false.
Definition low : Z -> bool := fun _ => false.

Lemma foo_not_spelled a : ~ spelled (str "foo=1") a.
Proof.
  intros S. remember (str "foo=1") as t eqn:E. destruct S as [| | | | |w lo hi T|w n lo hi v T N|w lo hi T]; try discriminate E;
    destruct (target_head _ _ _ T) as (c & r & H & C); rewrite H in E; injection E as E _; lia.
Qed.
Lemma words_refuted : ~ forall ext b w, (forall a, ~ spelled w a) -> forall b' o, gpio_main 3 ext b [str "gpio"; w] = Ok (b', o) -> forall p, b' p = b p.
Proof.
  intros H. remember (gpio_main 3 low idle [str "gpio"; str "foo=1"]) as r eqn:E. destruct r as [[b' o]| |]; [|vm_compute in E; discriminate..].
  specialize (H low idle _ foo_not_spelled b' o (eq_sym E) 0). apply (f_equal (fun r => match r with Ok (b, _) => level (b 0) | _ => false end)) in E. vm_compute in E.
  rewrite H in E. discriminate.
Qed.
Lemma one : numeral (str "1") 1.
Proof. change (str "1") with [49]. apply N_dec; [lia|]. apply (R_more 10 [] 0 49 1); [constructor|left; lia|lia]. Qed.
Lemma dash_refuted : ~ forall ext b t p v, numeral t p -> forall b' o, gpio_main 3 ext b [str "gpio"; t ++ 61 :: v] = Ok (b', o) -> forall q, q <> p -> b' q = b q.
Proof.
  intros H. set (high := fun _ : Z => Pin 5 true true false false). remember (gpio_main 3 low high [str "gpio"; str "1" ++ 61 :: str "0-5"]) as r eqn:E. destruct r as [[b' o]| |]; [|vm_compute in E; discriminate..].
  specialize (H low high _ 1 _ one b' o (eq_sym E) 5 ltac:(lia)). apply (f_equal (fun r => match r with Ok (b, _) => level (b 5) | _ => true end)) in E. vm_compute in E.
  rewrite H in E. discriminate.
Qed.
Lemma forty : numeral (str "40") 40.
Proof. change (str "40") with [52; 48]. apply N_dec; [lia|]. apply (R_more 10 [52] 4 48 0); [apply (R_more 10 [] 0 52 4); [constructor|left; lia|lia]|left; lia|lia]. Qed.
Lemma defined_refuted : ~ forall ext b w a, spelled w a -> gpio_main 3 ext b [str "gpio"; w] <> Ub.
Proof. intros H. apply (H low idle (str "40") (Get 40 40)); [apply S_get, T_one, forty|]. vm_compute. reflexivity. Qed.
