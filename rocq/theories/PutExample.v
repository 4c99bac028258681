From Coq Require Import SpecFloat.
From Verif Require Import Base CrcSpec FutfSpec FtoaModel PutModel PutSpec PutProof PutProof2 PutProof3.
Open Scope Z_scope.
Ltac Zify.zify_post_hook ::= idtac.

Lemma puts_any f s : Forall byte s -> exists cs, reads s cs /\ Forall scalar cs /\ (Z.of_nat (length (text cs)) <= 2147483647 -> f_puts f s = Ok (written f (text cs))).
Proof. exact (put_any f s). Qed.
Lemma putc_puts f c : f_putc f c = f_puts f [c].
Proof. unfold f_putc, f_puts. cbn [putall]. destruct (putc_bfd (putc_init f) c); reflexivity. Qed.
Lemma putc_ok f c : byte c -> f_putc f c = Ok (written f (if c <? 128 then [c] else [])).
Proof.
  intros B. rewrite putc_puts. unfold byte in B. destruct (Z.ltb_spec c 128) as [H|H].
  - assert (R : reads [c] [c]) by (apply rs_ascii; [lia|constructor]). rewrite (puts_ok f [c] [c]); [|repeat constructor; unfold byte; lia|exact R|].
    + unfold text. cbn [flat_map app]. unfold utf8_of, utf8_count. replace (c <? 128) with true by lia. reflexivity.
    + unfold text. cbn [flat_map app]. unfold utf8_of, utf8_count. replace (c <? 128) with true by lia. change (utf8_form 1 c) with [c]. cbn [length app]. lia.
  - assert (R : reads [c] []).
    { assert (K : cont c \/ 248 <= c < 256 \/ (exists x n, opens c x n)).
      { unfold cont. destruct (Z.ltb_spec c 192); [left; lia|]. right. destruct (Z.ltb_spec c 224); [right; do 2 eexists; apply op_two; lia|]. destruct (Z.ltb_spec c 240); [right; do 2 eexists; apply op_three; lia|]. destruct (Z.ltb_spec c 248); [right; do 2 eexists; apply op_four; lia|left; lia]. }
      destruct K as [K|[K|(x & n & K)]]; [apply rs_stray; [auto|constructor]|apply rs_stray; [auto|constructor]|]. change [c] with (c :: [] ++ []). apply (rs_cut c x n); [auto| |constructor|discriminate|constructor]. inversion K; subst; cbn; lia. }
    rewrite (puts_ok f [c] []); [reflexivity|repeat constructor; unfold byte; lia|exact R|cbn; lia].
Qed.

Definition empty (n : nat) (m : bool) : sink := {| data := []; room := n; mild := m |}.
(* a, e acute, a euro sign cut short, b, a smile *)
Example puts_example : f_puts (empty 100 false) ([97; 195; 169; 226; 130; 98] ++ [240; 159; 152; 128]) = Ok ({| data := [97; 195; 169; 98; 240; 159; 152; 128]; room := 92; mild := false |}, 8).
Proof. reflexivity. Qed.
Example puts_full : f_puts (empty 3 true) [97; 98; 99; 100] = Ok ({| data := [97; 98; 99]; room := 0; mild := true |}, -1).
Proof. reflexivity. Qed.
(* 0xC3 0xA9 is e acute, by two calls of f_putc *)
Example putc_example : f_putc (empty 10 false) 97 = Ok ({| data := [97]; room := 9; mild := false |}, 1) /\ f_putc (empty 10 false) 195 = Ok (empty 10 false, 0) /\ f_putc (empty 10 false) 169 = Ok (empty 10 false, 0).
Proof. repeat split; reflexivity. Qed.

(* %-5d|%05u|%lx|%.2s|%*c%% of -42, 7, 0xBEEF, hello, 3 and A *)
Definition ex_ps : list piece := [Cv Left (Dec [53]) No 0 100; Lit 124; Cv Zeros (Dec [53]) No 0 117; Lit 124; Cv Plain No No 1 120; Lit 124; Cv Plain No (Dec [50]) 0 115; Lit 124; Cv Plain Star No 0 99; Cv Plain No No 0 37].
Definition ex_args : list arg := [Int (-42); Int 7; Long 48879; Str (Some [104; 101; 108; 108; 111]); Int 3; Int 65].
Definition ex_out : list Z := [45; 52; 50; 32; 32; 124; 48; 48; 48; 48; 55; 124; 98; 101; 101; 102; 124; 104; 101; 124; 65; 37].
Ltac digs := repeat (apply Forall_cons; [unfold digit; lia|]); apply Forall_nil.
Ltac good1 := cbn [good]; first [split; lia|split; [intros ds Q; first [discriminate Q|injection Q as <-; split; [digs|split; [vm_compute; reflexivity|split; [discriminate|intros; cbn; first [discriminate|lia]]]]]|split; [intros ds Q; first [discriminate Q|injection Q as <-; split; [digs|vm_compute; reflexivity]]|split; [lia|split; [unfold digit; lia|cbn; lia]]]]].
Ltac good_all := repeat (apply Forall_cons; [good1|]); apply Forall_nil.
Lemma ex_good : Forall good ex_ps.
Proof. unfold ex_ps. good_all. Qed.
Lemma ex_numeral r low ds : Forall (fun d => 0 <= d < r) ds -> (exists d ds', ds = d :: ds' /\ d <> 0) -> numeral r low (number r ds) (map (digit_of low) ds).
Proof. intros F N. exists ds. auto. Qed.
Lemma ex_shows fl : shows fl ex_ps ex_args ex_out.
Proof.
  unfold ex_ps, ex_args, ex_out.
  eapply (sh_conv fl Left (Dec [53]) No 0 100 _ _ _ _ _ 5 (-1) [45; 52; 50] [124; 48; 48; 48; 48; 55; 124; 98; 101; 101; 102; 124; 104; 101; 124; 65; 37] (am_dec [53] _) ltac:(lia) ltac:(discriminate) (am_no _)); [apply (bo_neg fl 0 (-42)); [cbn; lia|apply (ex_numeral 10 false [4; 2]); [repeat constructor; lia|do 2 eexists; split; [reflexivity|lia]]]|].
  apply sh_lit. eapply (sh_conv fl Zeros (Dec [53]) No 0 117 _ _ _ _ _ 5 (-1) [55] [124; 98; 101; 101; 102; 124; 104; 101; 124; 65; 37] (am_dec [53] _) ltac:(lia) ltac:(discriminate) (am_no _)); [apply (bo_nat fl 0 117 10 false 7); [constructor|cbn; lia|lia|apply (ex_numeral 10 false [7]); [repeat constructor; lia|do 2 eexists; split; [reflexivity|lia]]]|].
  apply sh_lit. eapply (sh_conv fl Plain No No 1 120 _ _ _ _ _ (-1) (-1) [98; 101; 101; 102] [124; 104; 101; 124; 65; 37] (am_no _) ltac:(lia) ltac:(discriminate) (am_no _)); [apply (bo_nat fl 1 120 16 true 48879); [constructor|cbn; lia|lia|apply (ex_numeral 16 true [11; 14; 14; 15]); [repeat constructor; lia|do 2 eexists; split; [reflexivity|lia]]]|].
  apply sh_lit. eapply (sh_conv fl Plain No (Dec [50]) 0 115 _ _ _ _ _ (-1) 2 [104; 101] [124; 65; 37] (am_no _) ltac:(lia) ltac:(discriminate) (am_dec [50] _)); [apply (bo_cut fl 0 [104; 101; 108; 108; 111] 2); lia|].
  apply sh_lit. eapply (sh_char fl Plain Star No 0 _ _ _ _ 3 (-1) 65); [apply am_star|apply am_no|]. eapply sh_other; [cbn; lia|apply am_no|apply am_no|constructor].
Qed.
Example printf_example : f_printf 0 (empty 100 false) (format ex_ps) ex_args = Ok ({| data := ex_out; room := 78; mild := false |}, 22).
Proof. reflexivity. Qed.
Example printf_puts fl : f_printf fl (empty 100 false) (format ex_ps) ex_args = f_puts (empty 100 false) ex_out.
Proof. apply printf_ok; [apply ex_good|apply ex_shows]. Qed.

(* --- integers unlike those of C ------------------------------------------------------------ *)
Lemma sign_wrong fl f : f_printf fl f [37; 48; 53; 100] [Int (-42)] = f_puts f [48; 48; 45; 52; 50].
Proof.
  assert (E : f_printf fl f [37; 48; 53; 100] [Int (-42)] = f_printf fl f (format [Cv Zeros (Dec [53]) No 0 100]) [Int (-42)]) by reflexivity. rewrite E. apply printf_ok.
  - good_all.
  - eapply (sh_conv fl Zeros (Dec [53]) No 0 100 _ _ _ _ _ 5 (-1) [45; 52; 50] [] (am_dec [53] _) ltac:(lia) ltac:(discriminate) (am_no _)); [apply (bo_neg fl 0 (-42)); [cbn; lia|apply (ex_numeral 10 false [4; 2]); [repeat constructor; lia|do 2 eexists; split; [reflexivity|lia]]]|constructor].
Qed.
Lemma star_wrong fl f : f_printf fl f [37; 42; 100] [Int (-5); Int 7] = f_puts f (repeat 32 (Z.to_nat 4294967290) ++ [55]).
Proof.
  unfold f_printf, f_puts. rewrite putall_app. cbn [length print]. change (37 =? 37) with true. cbn [negb]. change (parse [42; 100] [Int (-5); Int 7]) with (Ok ({| left := false; pad := 32; w := 4294967291; prec := -1; size := 0 |}, [100], [Int 7])). cbn [bind]. change (radix 100) with (Some 10). cbv iota beta.
  assert (E : put_num (putc_init f) {| left := false; pad := 32; w := 4294967291; prec := -1; size := 0 |} 100 10 [Int 7] = (pb <- field (putc_init f) {| left := false; pad := 32; w := 4294967291; prec := -1; size := 0 |} 1 [55] ;; Ok (pb, []))) by reflexivity. rewrite E. clear E. unfold field, pads. cbn [left pad w]. change (4294967291 - 1) with 4294967290. generalize (Z.to_nat 4294967290). intros n. destruct (putall (putc_init f) (repeat 32 n)) as [pb| |]; cbn [bind]; auto. destruct (putall pb [55]); cbn [bind]; auto.
Qed.
Lemma binary_wrong fl f : f_printf fl f [37; 108; 108; 98] [Llong 4294967296] = f_puts f (repeat 48 32).
Proof.
  unfold f_printf, f_puts. cbn [length print]. change (37 =? 37) with true. cbn [negb]. change (parse [108; 108; 98] [Llong 4294967296]) with (Ok ({| left := false; pad := 32; w := 0; prec := -1; size := 2 |}, [98], [Llong 4294967296])). cbn [bind]. change (radix 98) with (Some 2). cbv iota beta.
  assert (E : put_num (putc_init f) {| left := false; pad := 32; w := 0; prec := -1; size := 2 |} 98 2 [Llong 4294967296] = (pb <- field (putc_init f) {| left := false; pad := 32; w := 0; prec := -1; size := 2 |} 32 (repeat 48 32) ;; Ok (pb, []))) by (unfold put_num; cbn [size]; assert (I : integer 2 (98 =? 100) [Llong 4294967296] = Ok (4294967296, [])) by (vm_compute; reflexivity); rewrite I; clear I; cbn [bind]; change (98 =? 100) with false; cbn [andb]; assert (D : digits size_num 4294967296 2 (98 =? 120) [] = repeat 48 32) by (vm_compute; reflexivity); rewrite D; reflexivity). rewrite E. clear E. unfold field, pads. cbn [left pad w]. change (Z.to_nat (0 - 32)) with 0%nat. change (repeat 32 0) with (@nil Z). cbn [putall bind]. destruct (putall (putc_init f) (repeat 48 32)); cbn [bind]; auto.
Qed.

(* --- floating point ------------------------------------------------------------------------ *)
Definition one_double (pr : amount) (c : Z) : list Z := format [Cv Plain No pr 0 c].
Lemma float_one fl f pr c x : good (Cv Plain No pr 0 c) -> In c [102; 101; 69] -> (exists ds, pr = Dec ds) \/ pr = No ->
  f_printf fl f (one_double pr c) [Double x] = (t <- ftoa fl x (match pr with Dec ds => decimal ds | _ => -1 end) c ;; f_puts f t).
Proof.
  intros G Hc Hp. set (p := match pr with Dec ds => decimal ds | _ => -1 end). assert (A : amounts pr [Double x] p [Double x]) by (destruct Hp as [(ds & ->)| ->]; constructor).
  destruct (ftoa fl x p c) as [t| |] eqn:E; cbn [bind].
  - apply (printf_ok fl f [Cv Plain No pr 0 c]); [apply Forall_cons; [exact G|apply Forall_nil]|]. assert (P : padded Plain (-1) t ++ [] = t) by (unfold padded; replace (Z.to_nat (-1 - Z.of_nat (length t))) with 0%nat by lia; rewrite app_nil_r; reflexivity). rewrite <- P. clear P. eapply (sh_conv fl Plain No pr 0 c [] [Double x] _ _ _ (-1) p t []); [apply am_no|lia|discriminate|exact A| |constructor]. now apply bo_float.
  - unfold f_printf, one_double. cbn [format flat_map show app]. rewrite app_nil_r. cbn [print]. change (37 =? 37) with true. cbn [negb]. pose proof (parse_ok Plain No pr 0 c [] [Double x] [Double x] [Double x] (-1) p G (am_no _) A) as P. unfold ptext in P. cbn [flag_text amount_text repeat app] in P |- *. rewrite P. cbn [bind]. assert (K : radix c = None /\ (c =? 99) = false /\ (c =? 115) = false /\ (c =? 102) || (c =? 101) || (c =? 69) = true) by (cbn in Hc; destruct Hc as [<-|[<-|[<-|[]]]]; auto). destruct K as (-> & -> & -> & ->). cbn [prec]. rewrite E. reflexivity.
  - unfold f_printf, one_double. cbn [format flat_map show app]. rewrite app_nil_r. cbn [print]. change (37 =? 37) with true. cbn [negb]. pose proof (parse_ok Plain No pr 0 c [] [Double x] [Double x] [Double x] (-1) p G (am_no _) A) as P. unfold ptext in P. cbn [flag_text amount_text repeat app] in P |- *. rewrite P. cbn [bind]. assert (K : radix c = None /\ (c =? 99) = false /\ (c =? 115) = false /\ (c =? 102) || (c =? 101) || (c =? 69) = true) by (cbn in Hc; destruct Hc as [<-|[<-|[<-|[]]]]; auto). destruct K as (-> & -> & -> & ->). cbn [prec]. rewrite E. reflexivity.
Qed.
(* %.26e of 0.0: one byte more than the buffer *)
Lemma overflow fl f : (60 <= fl)%nat -> f_printf fl f [37; 46; 50; 54; 101] [Double f0] = Ub.
Proof.
  intros Hf. change [37; 46; 50; 54; 101] with (one_double (Dec [50; 54]) 101). rewrite float_one; [|good1|cbn; auto|left; eauto]. change (decimal [50; 54]) with 26.
  assert (E : ftoa fl f0 26 101 = Ub); [|rewrite E; reflexivity].
  assert (D : forall k, (60 <= k)%nat -> put_digits k k [] f0 0 26 = put_digits 60 60 [] f0 0 26); [|change (ftoa fl f0 26 101) with (o <- (o <- put_digits fl fl [] f0 0 26 ;; put_exp o 101 0) ;; _ <- put o 0 ;; Ok o); rewrite (D fl Hf); vm_compute; reflexivity].
  clear. intros k Hk.
  assert (I : forall m, -26 <= m <= 0 -> exists w, i10x 60 m = Ok w /\ i10x k m = Ok w).
  { intros m Hm. assert (E : exists w, i10x 60 m = Ok w).
    { assert (F : forallb (fun n => match i10x 60 (- Z.of_nat n) with Ok _ => true | _ => false end) (seq 0 27) = true) by (vm_compute; reflexivity). pose proof (proj1 (forallb_forall _ _) F (Z.to_nat (- m)) ltac:(apply in_seq; lia)) as G. cbv beta in G. rewrite Z2Nat.id, Z.opp_involutive in G by lia. revert G. generalize (i10x 60 m). intros r G. destruct r as [w| |]; [eauto|discriminate G|discriminate G]. }
    destruct E as (w & E). exists w. split; [exact E|]. exact (i10x_more _ _ _ E k Hk). }
  assert (J : forall j a o v m, (j <= a)%nat -> (j <= 60)%nat -> -26 <= m <= 0 -> (27 + m < Z.of_nat j) -> put_digits a k o v m 26 = put_digits j 60 o v m 26).
  { induction j as [|j IH]; intros a o v m Ha Hj Hm Hjm; [lia|]. destruct a as [|a]; [lia|]. cbn [put_digits]. destruct (if m =? -1 then put o 46 else Ok o) as [o1| |]; cbn [bind]; auto. destruct (I m Hm) as (w & -> & ->). cbn [bind]. destruct (put o1 _) as [o2| |]; cbn [bind]; auto. destruct (Z.leb_spec (- (26)) (m - 1)); auto. apply IH; lia. }
  apply J; lia.
Qed.
Lemma no_end_max fl f : f_printf fl f [37; 101] [Double dbl_max] = NoFuel.
Proof. change [37; 101] with (one_double No 101). rewrite float_one; [|good1|cbn; auto|auto]. change (ftoa fl dbl_max (-1) 101) with (ftoa fl dbl_max 6 101). rewrite max_e by lia. reflexivity. Qed.
Lemma no_end_zero fl f : f_printf fl f [37; 46; 52; 48; 48; 102] [Double f0] = NoFuel.
Proof. change [37; 46; 52; 48; 48; 102] with (one_double (Dec [52; 48; 48]) 102). rewrite float_one; [|good1|cbn; auto|left; eauto]. change (decimal [52; 48; 48]) with 400. rewrite zero_f. reflexivity. Qed.
(* 10^28 *)
Definition big : double := binary_normalize 53 1024 (10 ^ 28) 0 false.
(* %.0f *)
Lemma colon f : f_printf 60 f [37; 46; 48; 102] [Double big] = f_puts f (58 :: repeat 48 27).
Proof. change [37; 46; 48; 102] with (one_double (Dec [48]) 102). rewrite float_one; [|good1|cbn; auto|left; eauto]. assert (E : ftoa 60 big (decimal [48]) 102 = Ok (58 :: repeat 48 27)) by (vm_compute; reflexivity). rewrite E. reflexivity. Qed.
(* 0.009 *)
Definition small : double := fdiv (of_int 9) (of_int 1000).
(* %.18f *)
Lemma slash f : f_printf 60 f [37; 46; 49; 56; 102] [Double small] = f_puts f [48; 46; 48; 48; 57; 48; 48; 48; 48; 48; 48; 48; 48; 48; 48; 48; 48; 48; 48; 47].
Proof. change [37; 46; 49; 56; 102] with (one_double (Dec [49; 56]) 102). rewrite float_one; [|good1|cbn; auto|left; eauto]. assert (E : ftoa 60 small (decimal [49; 56]) 102 = Ok [48; 46; 48; 48; 57; 48; 48; 48; 48; 48; 48; 48; 48; 48; 48; 48; 48; 48; 48; 47]) by (vm_compute; reflexivity). rewrite E. reflexivity. Qed.
(* %.3f of -12.5, and 1.250000e+01 *)
Example float_example : ftoa 60 (fdiv (of_int (-25)) f2) 3 102 = Ok [45; 49; 50; 46; 53; 48; 48] /\ ftoa 60 (fdiv (of_int 25) f2) (-1) 101 = Ok [49; 46; 50; 53; 48; 48; 48; 48; 101; 43; 48; 49].
Proof. split; vm_compute; reflexivity. Qed.
