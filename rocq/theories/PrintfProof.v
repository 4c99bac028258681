From Verif Require Import Base PrintfModel PrintfSpec.
Open Scope Z_scope.

Lemma rd_at a b c : rd (a ++ b :: c) (length a) = Ok b.
Proof. unfold rd. rewrite nth_error_app2 by lia. now rewrite Nat.sub_diag. Qed.
Lemma rd_at' a b c n : n = length a -> rd (a ++ b :: c) n = Ok b.
Proof. intros ->. apply rd_at. Qed.
Lemma wr_at a b c x : wr (a ++ b :: c) (length a) x = Ok (a ++ x :: c).
Proof. induction a as [|y a IH]; cbn; [auto|]. now rewrite IH. Qed.
Lemma wr_at' a b c x n : n = length a -> wr (a ++ b :: c) n x = Ok (a ++ x :: c).
Proof. intros ->. apply wr_at. Qed.

(* --- escape -------------------------------------------------------------------------------- *)
Lemma wr_store out junk k s x : k <> [] -> wr (out ++ junk ++ k ++ s) (length out) x = Ok ((out ++ [x]) ++ tl (junk ++ k) ++ s).
Proof.
  intros N. rewrite (app_assoc junk). destruct (junk ++ k) as [|y l] eqn:E; [apply app_eq_nil in E; tauto|]. cbn [app tl]. rewrite wr_at. now rewrite <- app_assoc.
Qed.
Lemma octal_iff b : octal b = true <-> octal_digit b.
Proof. unfold octal, octal_digit. lia. Qed.
Lemma digits8_ok ds s : Forall octal_digit ds -> forall n a v, (length ds <= n)%nat -> (length ds = n \/ octal (hd 0 s) = false) -> s <> [] ->
  digits8 n (a ++ ds ++ s) v (length a) = Ok (fold_left (fun n d => 8 * n + (d - 48)) ds v, (length a + length ds)%nat).
Proof.
  induction 1 as [|d ds H F IH]; intros n a v L Q Ns.
  - cbn [app length fold_left]. rewrite Nat.add_0_r. destruct n as [|n]; [reflexivity|]. destruct s as [|b s]; [congruence|]. cbn [digits8]. rewrite rd_at. cbn [bind]. destruct Q as [Q|Q]; [discriminate|]. cbn in Q. now rewrite Q.
  - destruct n as [|n]; [cbn in L; lia|]. cbn [digits8 app]. rewrite rd_at. cbn [bind]. apply octal_iff in H. rewrite H. replace (a ++ d :: ds ++ s) with ((a ++ [d]) ++ ds ++ s) by (now rewrite <- app_assoc). replace (S (length a)) with (length (a ++ [d])) by (rewrite app_length; cbn; lia). cbn in L. rewrite IH; [|lia|destruct Q; [cbn in *; left; lia|auto]|auto]. cbn [fold_left]. rewrite app_length. cbn [length]. f_equal. f_equal; [f_equal; lia|lia].
Qed.
Lemma simple_letter b c : In (b, c) letters -> simple b = c /\ octal b = false /\ b <> 0.
Proof. intros I. cbn in I. repeat (destruct I as [I|I]; [injection I as <- <-; repeat split; discriminate|]). destruct I. Qed.
Lemma simple_other b : ~ In b (map fst letters) -> simple b = b.
Proof.
  intros N. cbn in N. unfold simple. repeat match goal with |- context [b =? ?x] => destruct (Z.eqb_spec b x); [exfalso; apply N; subst; tauto|] end. auto.
Qed.
Lemma escape_run s t : escaped s t -> Forall (fun b => b <> 0) s -> forall fuel out junk tl0, (length s < fuel)%nat ->
  exists rest, escape fuel (out ++ junk ++ s ++ 0 :: tl0) (length out + length junk) (length out) = Ok (out ++ t ++ 0 :: rest) /\ (length t + length rest = length junk + length s + length tl0)%nat.
Proof.
  induction 1 as [| |b s t Nb E IH|b c s t I E IH|b s t N1 N2 E IH|ds s t Nd Fd Ld Md E IH]; intros Nz fuel out junk tl0 L; (destruct fuel as [|fuel]; [cbn in L; lia|]); cbn [escape].
  - rewrite app_assoc. cbn [app]. rewrite rd_at' by (now rewrite app_length). cbn [bind]. change (0 =? 0) with true. cbv iota. rewrite <- app_assoc. pose proof (wr_store out junk [0] tl0 0 ltac:(discriminate)) as W. cbn [app] in W. rewrite W. eexists. split; [rewrite <- app_assoc; reflexivity|]. rewrite app_length. destruct junk; cbn; [lia|]. rewrite app_length. cbn. lia.
  - replace (out ++ junk ++ [92] ++ 0 :: tl0) with ((out ++ junk) ++ 92 :: 0 :: tl0) by (now rewrite <- app_assoc). rewrite rd_at' by (now rewrite app_length). cbn [bind]. change (92 =? 0) with false. change (92 =? 92) with true. cbv iota. cbn [negb]. replace ((out ++ junk) ++ 92 :: 0 :: tl0) with ((out ++ junk ++ [92]) ++ 0 :: tl0) by (now rewrite <- !app_assoc). rewrite rd_at' by (rewrite !app_length; cbn; lia). cbn [bind]. change (0 =? 0) with true. cbv iota.
    rewrite <- !app_assoc. rewrite (wr_store out junk [92] (0 :: tl0) 92) by discriminate. cbn [bind]. replace (S (length out)) with (length (out ++ [92])) by (rewrite app_length; cbn; lia).
    pose proof (wr_store (out ++ [92]) (tl (junk ++ [92])) [0] tl0 0 ltac:(discriminate)) as W. cbn [app] in W. rewrite W. eexists. split; [rewrite <- !app_assoc; reflexivity|]. rewrite app_length. destruct junk as [|x [|y junk]]; cbn; try lia. rewrite !app_length. cbn. lia.
  - inversion Nz as [|? ? Nz0 Nz']; subst. replace (out ++ junk ++ (b :: s) ++ 0 :: tl0) with ((out ++ junk) ++ b :: s ++ 0 :: tl0) by (now rewrite <- app_assoc). rewrite rd_at' by (now rewrite app_length). cbn [bind]. replace (b =? 0) with false by lia. replace (b =? 92) with false by lia. cbn [negb]. rewrite <- app_assoc. pose proof (wr_store out junk [b] (s ++ 0 :: tl0) b ltac:(discriminate)) as W. cbn [app] in W. rewrite W. cbn [bind].
    destruct (IH Nz' fuel (out ++ [b]) (tl (junk ++ [b])) tl0 ltac:(cbn in L; lia)) as (rest & R & Le). assert (Lj : length (tl (junk ++ [b])) = length junk) by (destruct junk; cbn; [lia|rewrite app_length; cbn; lia]). rewrite app_length, Lj in *. cbn [length] in R. replace (length out + 1 + length junk)%nat with (S (length out + length junk)) in R by lia. replace (length out + 1)%nat with (S (length out)) in R by lia. rewrite R. exists rest. split; [now rewrite <- app_assoc|]. cbn. lia.
  - inversion Nz as [|? ? _ Nz0]; subst. inversion Nz0 as [|? ? _ Nz']; subst. destruct (simple_letter b c I) as (Sb & Ob & Bz). replace (out ++ junk ++ (92 :: b :: s) ++ 0 :: tl0) with ((out ++ junk) ++ 92 :: b :: s ++ 0 :: tl0) by (now rewrite <- app_assoc). rewrite rd_at' by (now rewrite app_length). cbn [bind]. change (92 =? 0) with false. change (92 =? 92) with true. cbn [negb]. cbv iota. replace ((out ++ junk) ++ 92 :: b :: s ++ 0 :: tl0) with ((out ++ junk ++ [92]) ++ b :: s ++ 0 :: tl0) by (now rewrite <- !app_assoc). rewrite rd_at' by (rewrite !app_length; cbn; lia). cbn [bind]. replace (b =? 0) with false by lia. rewrite Ob, Sb. rewrite <- !app_assoc. cbn [app]. pose proof (wr_store out junk [92; b] (s ++ 0 :: tl0) c ltac:(discriminate)) as W. cbn [app] in W. rewrite W. cbn [bind].
    destruct (IH Nz' fuel (out ++ [c]) (tl (junk ++ [92; b])) tl0 ltac:(cbn in L; lia)) as (rest & R & Le). assert (Lj : length (tl (junk ++ [92; b])) = S (length junk)) by (destruct junk; cbn; [lia|rewrite app_length; cbn; lia]). rewrite app_length, Lj in *. cbn [length] in R. replace (length out + 1 + S (length junk))%nat with (S (S (length out + length junk))) in R by lia. replace (length out + 1)%nat with (S (length out)) in R by lia. rewrite R. exists rest. split; [now rewrite <- app_assoc|]. cbn. lia.
  - inversion Nz as [|? ? _ Nz0]; subst. inversion Nz0 as [|? ? Bz Nz']; subst. pose proof (simple_other b N1) as Sb. assert (Ob : octal b = false) by (destruct (octal b) eqn:Q; [apply octal_iff in Q; contradiction|auto]). replace (out ++ junk ++ (92 :: b :: s) ++ 0 :: tl0) with ((out ++ junk) ++ 92 :: b :: s ++ 0 :: tl0) by (now rewrite <- app_assoc). rewrite rd_at' by (now rewrite app_length). cbn [bind]. change (92 =? 0) with false. change (92 =? 92) with true. cbn [negb]. cbv iota. replace ((out ++ junk) ++ 92 :: b :: s ++ 0 :: tl0) with ((out ++ junk ++ [92]) ++ b :: s ++ 0 :: tl0) by (now rewrite <- !app_assoc). rewrite rd_at' by (rewrite !app_length; cbn; lia). cbn [bind]. replace (b =? 0) with false by lia. rewrite Ob, Sb. rewrite <- !app_assoc. cbn [app]. pose proof (wr_store out junk [92; b] (s ++ 0 :: tl0) b ltac:(discriminate)) as W. cbn [app] in W. rewrite W. cbn [bind].
    destruct (IH Nz' fuel (out ++ [b]) (tl (junk ++ [92; b])) tl0 ltac:(cbn in L; lia)) as (rest & R & Le). assert (Lj : length (tl (junk ++ [92; b])) = S (length junk)) by (destruct junk; cbn; [lia|rewrite app_length; cbn; lia]). rewrite app_length, Lj in *. cbn [length] in R. replace (length out + 1 + S (length junk))%nat with (S (S (length out + length junk))) in R by lia. replace (length out + 1)%nat with (S (length out)) in R by lia. rewrite R. exists rest. split; [now rewrite <- app_assoc|]. cbn. lia.
  - inversion Nz as [|? ? _ Nz0]; subst. apply Forall_app in Nz0 as [_ Nz']. destruct ds as [|d ds]; [congruence|]. inversion Fd as [|? ? Od Fd']; subst. replace (out ++ junk ++ (92 :: (d :: ds) ++ s) ++ 0 :: tl0) with ((out ++ junk) ++ 92 :: d :: ds ++ s ++ 0 :: tl0) by (rewrite <- !app_assoc; cbn; now rewrite <- !app_assoc). rewrite rd_at' by (now rewrite app_length). cbn [bind]. change (92 =? 0) with false. change (92 =? 92) with true. cbn [negb]. cbv iota. replace ((out ++ junk) ++ 92 :: d :: ds ++ s ++ 0 :: tl0) with ((out ++ junk ++ [92]) ++ d :: ds ++ s ++ 0 :: tl0) by (now rewrite <- !app_assoc). rewrite rd_at' by (rewrite !app_length; cbn; lia). cbn [bind]. replace (d =? 0) with false by (unfold octal_digit in Od; lia). replace (octal d) with true by (symmetry; now apply octal_iff).
    replace (S (length out + length junk)) with (length (out ++ junk ++ [92])) by (rewrite !app_length; cbn; lia). change (d :: ds ++ s ++ 0 :: tl0) with ((d :: ds) ++ s ++ 0 :: tl0). rewrite (digits8_ok (d :: ds) (s ++ 0 :: tl0) Fd 3); [|auto| |destruct s; discriminate].
    2:{ destruct Md as [Md|Md]; [auto|]. right. destruct s as [|b s]; [reflexivity|]. cbn in Md |- *. destruct (octal b) eqn:Q; [apply octal_iff in Q; contradiction|auto]. }
    cbn [bind]. fold (octal_number (d :: ds)). set (x := octal_number (d :: ds) mod 256). replace ((out ++ junk ++ [92]) ++ (d :: ds) ++ s ++ 0 :: tl0) with (out ++ junk ++ (92 :: d :: ds) ++ s ++ 0 :: tl0) by (now rewrite <- !app_assoc). rewrite (wr_store out junk (92 :: d :: ds)) by discriminate. cbn [bind].
    destruct (IH Nz' fuel (out ++ [x]) (tl (junk ++ 92 :: d :: ds)) tl0 ltac:(cbn in L; rewrite app_length in L; lia)) as (rest & R & Le). assert (Lj : length (tl (junk ++ 92 :: d :: ds)) = (length junk + length (d :: ds))%nat) by (destruct junk; cbn; [lia|rewrite app_length; cbn; lia]). rewrite !app_length, Lj in *. cbn [length] in R |- *. replace (length out + 1 + (length junk + S (length ds)))%nat with (length out + (length junk + 1) + S (length ds))%nat in R by lia. replace (length out + 1)%nat with (S (length out)) in R by lia. rewrite R. exists rest. split; [now rewrite <- app_assoc|]. cbn in *. rewrite app_length. lia.
Qed.
Theorem escape_ok s t : Forall (fun b => b <> 0) s -> escaped s t -> exists rest, escape (S (S (length s))) (s ++ [0]) 0 0 = Ok (t ++ 0 :: rest) /\ (length t + length rest = length s)%nat.
Proof. intros N E. destruct (escape_run s t E N (S (S (length s))) [] [] [] ltac:(lia)) as (rest & R & L). exists rest. cbn [app length Nat.add] in R, L. split; [exact R|lia]. Qed.
Lemma escaped_all n : forall s, (length s <= n)%nat -> exists t, escaped s t.
Proof.
  induction n as [|n IH]; intros s L; [destruct s; [exists []; constructor|cbn in L; lia]|]. destruct s as [|b s]; [exists []; constructor|]. cbn in L. destruct (Z.eq_dec b 92) as [->|N].
  - destruct s as [|c s]; [exists [92]; constructor|]. cbn in L. destruct (octal c) eqn:O.
    + assert (X : exists ds r, c :: s = ds ++ r /\ ds <> [] /\ Forall octal_digit ds /\ (length ds <= 3)%nat /\ (length ds = 3%nat \/ ~ octal_digit (hd 0 r))).
      { assert (Z0 : ~ octal_digit (hd 0 [])) by (unfold octal_digit; cbn; lia). assert (Oc : forall x, octal x = false -> ~ octal_digit x) by (intros x Q Q'; apply octal_iff in Q'; congruence). apply octal_iff in O. destruct s as [|d s]; [exists [c], []; repeat split; [discriminate|repeat constructor; apply O|cbn; lia|auto]|]. destruct (octal d) eqn:O2.
        - apply octal_iff in O2. destruct s as [|e s]; [exists [c; d], []; repeat split; [discriminate|repeat constructor; auto; apply O || apply O2|cbn; lia|auto]|]. destruct (octal e) eqn:O3.
          + apply octal_iff in O3. exists [c; d; e], s. repeat split; [discriminate|repeat constructor; apply O || apply O2 || apply O3|cbn; lia|auto].
          + exists [c; d], (e :: s). repeat split; [discriminate|repeat constructor; apply O || apply O2|cbn; lia|right; cbn; auto].
        - exists [c], (d :: s). repeat split; [discriminate|repeat constructor; apply O|cbn; lia|right; cbn; auto]. }
      destruct X as (ds & r & E & Nd & Fd & Ld & Md). assert (Lr : (length (c :: s) = length ds + length r)%nat) by (rewrite E; apply app_length). cbn in Lr. destruct ds as [|d ds]; [congruence|]. cbn in Lr. destruct (IH r ltac:(lia)) as (t & T). exists (octal_number (d :: ds) mod 256 :: t). rewrite E. now apply esc_octal.
    + destruct (IH s ltac:(lia)) as (t & T). destruct (in_dec Z.eq_dec c (map fst letters)) as [I|I].
      * apply in_map_iff in I as ((x & y) & <- & I). exists (y :: t). now apply esc_letter.
      * exists (c :: t). apply esc_other; auto. intros Q. apply octal_iff in Q. congruence.
  - destruct (IH s ltac:(lia)) as (t & T). exists (b :: t). now apply esc_char.
Qed.
