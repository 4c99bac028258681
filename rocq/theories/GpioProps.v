(* C131-C133 *)
From Coq Require Import String.
From Verif Require Import Base ExecModel CliModel CliSpec CliProof GpioModel GpioSpec GpioProof GpioProof2.
Open Scope Z_scope.

Theorem C131_echo : forall ws prog fuel, Forall word_ok ws -> prog <> [45; 45] -> (weight ws < fuel)%nat ->
  cmd_echo fuel (prog :: map text ws) = Ok (join (words ws) ++ if has_n ws then [] else [13; 10]).
Proof. exact echo_ok. Qed.
Print Assumptions C131_echo.

Theorem C132_gpio : forall ext b prog ws acts fuel, Forall2 spelled ws acts -> allowed GETSET acts -> prog <> [45; 45] -> ws <> [] -> (List.length ws < fuel)%nat ->
  exists b' o, gpio_main fuel ext b (prog :: ws) = Ok (b', o) /\ performs ext GETSET b acts b' o.
Proof. exact main_ok. Qed.
Print Assumptions C132_gpio.

Theorem C132_gpio_alone : forall ext b prog fuel, prog <> [45; 45] -> (0 < fuel)%nat -> gpio_main fuel ext b [prog] = Ok (b, table ext b).
Proof. exact main_none. Qed.
Print Assumptions C132_gpio_alone.

Theorem C133_words_refuted : ~ forall ext b w, (forall a, ~ spelled w a) -> forall b' o, gpio_main 3 ext b [str "gpio"; w] = Ok (b', o) -> forall p, b' p = b p.
Proof. exact words_refuted. Qed.
Print Assumptions C133_words_refuted.

Theorem C133_dash_refuted : ~ forall ext b t p v, numeral t p -> forall b' o, gpio_main 3 ext b [str "gpio"; t ++ 61 :: v] = Ok (b', o) -> forall q, q <> p -> b' q = b q.
Proof. exact dash_refuted. Qed.
Print Assumptions C133_dash_refuted.

Theorem C133_defined_refuted : ~ forall ext b w a, spelled w a -> gpio_main 3 ext b [str "gpio"; w] <> Ub.
Proof. exact defined_refuted. Qed.
Print Assumptions C133_defined_refuted.
