From Verif Require Import Base FutfModel FutfSpec FutfProof LfnModel LfnSpec LfnProof FdirModel FdirSpec FdirProof FnameModel FnameSpec FnameProof.
Open Scope Z_scope.

Lemma xunits_pos x : xunits x -> Forall (fun u => 0 < u < 65536) x.
Proof. apply Forall_impl. lia. Qed.
Lemma xunits_ge x : xunits x -> Forall (fun u => 32 <= u) x.
Proof. apply Forall_impl. lia. Qed.

(* A buffer starting with x *)
Definition starts (buf : Z -> Z) (x : list Z) : Prop := forall j, 0 <= j < zlen x -> buf j = xat x j.
Lemma rd_pre buf x j : starts buf x -> (length x <= 255)%nat -> 0 <= j < zlen x -> rd buf j = Ok (xat x j).
Proof. intros S L J. unfold rd, LFNBUF, zlen in *. replace ((0 <=? j) && (j <? 256)) with true by lia. f_equal. apply S. unfold zlen. lia. Qed.
Lemma starts_app buf x y : starts buf (x ++ y) -> starts buf x.
Proof. intros S j J. rewrite S by (rewrite zlen_app; pose proof (zlen_nonneg y); lia). unfold xat, zlen in *. now rewrite app_nth1 by lia. Qed.
Lemma xat_last x u : xat (x ++ [u]) (zlen x) = u.
Proof. apply xat_app0. Qed.

Lemma snip_ok buf : forall x, starts buf x -> (length x <= 255)%nat -> exists y, snipped x y /\ snip_loop (length x) buf = Ok (zlen y).
Proof.
  induction x as [|u x IH] using rev_ind; intros S L.
  - exists []. split; [exists []; split; [auto|]; split; [constructor|]; intros y' u E; destruct y'; discriminate|reflexivity].
  - rewrite app_length in *. cbn [length] in *. rewrite Nat.add_1_r in *. cbn [snip_loop].
    rewrite (rd_pre buf (x ++ [u])); [|auto|rewrite app_length; cbn [length]; lia|unfold zlen; rewrite app_length; cbn [length]; lia].
    fold (zlen x). rewrite xat_last. cbn [bind].
    destruct (negb (u =? 32) && negb (u =? 46)) eqn:Q.
    + exists (x ++ [u]). split; [|f_equal; rewrite zlen_app; unfold zlen; cbn [length]; lia].
      exists []. split; [now rewrite app_nil_r|]. split; [constructor|]. intros y' v E. apply app_inj_tail in E as [_ <-]. unfold blank. lia.
    + destruct (IH (starts_app _ _ _ S) ltac:(lia)) as (y & (t & E & T & N) & R). exists y. split; [|auto].
      exists (t ++ [u]). split; [rewrite app_assoc; now rewrite <- E|]. split; [|auto]. apply Forall_app. split; [auto|]. constructor; [|constructor]. unfold blank. lia.
Qed.

Lemma dot_ok buf : forall x, starts buf x -> (length x <= 255)%nat ->
  (~ In 46 x /\ dot_loop (length x) buf = Ok 0) \/ (exists body ext, x = body ++ 46 :: ext /\ ~ In 46 ext /\ dot_loop (length x) buf = Ok (zlen body + 1)).
Proof.
  induction x as [|u x IH] using rev_ind; intros S L.
  - left. split; [intros []|reflexivity].
  - rewrite app_length in *. cbn [length] in *. rewrite Nat.add_1_r in *. cbn [dot_loop].
    rewrite (rd_pre buf (x ++ [u])); [|auto|rewrite app_length; cbn [length]; lia|unfold zlen; rewrite app_length; cbn [length]; lia].
    fold (zlen x). rewrite xat_last. cbn [bind]. destruct (Z.eqb_spec u 46) as [->|N].
    + right. exists x, []. split; [auto|]. split; [intros []|]. f_equal. unfold zlen. lia.
    + destruct (IH (starts_app _ _ _ S) ltac:(lia)) as [[A R]|(body & ext & E & A & R)]; [left|right].
      * split; [|auto]. rewrite in_app_iff. cbn. intros [|[|[]]]; auto.
      * exists body, (ext ++ [u]). split; [rewrite E, <- app_assoc; reflexivity|]. split; [|auto]. rewrite in_app_iff. cbn. intros [|[|[]]]; auto.
Qed.

Lemma lead_ok lfn x : holds lfn x -> (length x <= 255)%nat -> forall fuel si, 0 <= si <= zlen x -> (Z.to_nat (zlen x - si) < fuel)%nat ->
  exists k, lead_loop fuel lfn si = Ok k /\ si <= k <= zlen x /\ (k = si -> xat x si <> 32) /\ (si < k -> xat x si = 32).
Proof.
  intros H L. induction fuel as [|fuel IH]; intros si S F; [lia|]. cbn [lead_loop]. rewrite (rd_x lfn x) by auto. cbn [bind].
  destruct (Z.eqb_spec (xat x si) 32) as [E|E].
  - assert (si <> zlen x) by (intros ->; rewrite xat_end in E; lia). destruct (IH (si + 1) ltac:(lia) ltac:(lia)) as (k & R & K & _). exists k. split; [auto|]. split; [lia|]. split; [lia|auto].
  - exists si. split; [auto|]. split; [lia|]. split; [auto|lia].
Qed.

Lemma first_dot : forall f f' c c' : list Z, f ++ 46 :: c = f' ++ 46 :: c' -> ~ In 46 f -> ~ In 46 f' -> f = f' /\ c = c'.
Proof.
  induction f as [|u f IH]; intros [|v f'] c c2 E N N'; cbn in *.
  - injection E as ->. auto.
  - injection E as E1 E2. subst. tauto.
  - injection E as E1 E2. subst. tauto.
  - injection E as <- E. destruct (IH _ _ _ E ltac:(tauto) ltac:(tauto)) as [-> ->]. auto.
Qed.
Lemma split_unique x b e b' e' : split_name x b e -> split_name x b' e' -> b = b' /\ e = e'.
Proof.
  assert (D : forall b e : list Z, In 46 (b ++ 46 :: e)) by (intros; rewrite in_app_iff; cbn; auto).
  intros [(-> & -> & N)|(E & N)] [(-> & -> & N')|(E' & N')].
  - auto.
  - exfalso. apply N. rewrite E'. auto.
  - exfalso. apply N'. rewrite E. auto.
  - rewrite E in E'. apply (f_equal (@rev Z)) in E'. rewrite !rev_app_distr in E'. cbn [rev] in E'. rewrite <- !app_assoc in E'. rewrite in_rev in N, N'.
    destruct (first_dot _ _ _ _ E' N N') as [A B]. split.
    + rewrite <- (rev_involutive b), <- (rev_involutive b'). now f_equal.
    + rewrite <- (rev_involutive e), <- (rev_involutive e'). now f_equal.
Qed.

(* --- the flags --------------------------------------------------------------------------- *)
Definition flags_lossy (c : Z * (Z * Z)) : bool := let '(cf, (ni, b)) := c in case_flags ni b (Z.lor cf 3) =? Z.lor cf 3.
Lemma flags_loss cf ni b : cf = 0 \/ cf = 4 -> (ni = 8 /\ 0 <= b < 4) \/ (ni = 11 /\ 0 <= b < 16) -> case_flags ni b (Z.lor cf 3) = Z.lor cf 3.
Proof.
  intros C P. assert (F : forallb flags_lossy (list_prod [0; 4] (list_prod [8; 11] (map Z.of_nat (seq 0 16)))) = true) by (vm_compute; reflexivity).
  rewrite forallb_forall in F. specialize (F (cf, (ni, b))). cbn [flags_lossy] in F. apply Z.eqb_eq, F. rewrite !in_prod_iff. split; [cbn; lia|]. split; [cbn; lia|].
  apply in_map_iff. exists (Z.to_nat b). split; [lia|]. apply in_seq. lia.
Qed.
Definition fm_flags (last : bool) (body ext : list Z) (v : Z) : Prop :=
  0 <= v < 32 /\ has v 1 = false /\ has v 4 = last /\ has v 2 = mixed body || mixed ext /\ (has v 2 = false -> has v 8 = existsb is_low body /\ has v 16 = existsb is_low ext) /\ (has v 2 = true -> Z.land v 24 = 0).
Lemma flags_body cf body : cf = 0 \/ cf = 4 -> fm_flags (cf =? 4) body [] (case_flags 8 (cbits body) cf).
Proof.
  intros C. unfold fm_flags, mixed, cbits. cbn [existsb]. destruct C as [-> | ->]; destruct (existsb is_up body), (existsb is_low body); vm_compute; repeat split; intros; congruence.
Qed.
Lemma flags_both cf body ext : cf = 0 \/ cf = 4 -> fm_flags (cf =? 4) body ext (case_flags 11 (Z.lor (cbits body * 4 mod 256) (cbits ext)) cf).
Proof.
  intros C. unfold fm_flags, mixed, cbits. destruct C as [-> | ->]; destruct (existsb is_up body), (existsb is_low body), (existsb is_up ext), (existsb is_low ext); vm_compute; repeat split; intros; congruence.
Qed.

Definition fin (ni b cf : Z) (fn : Z -> Z) : Z -> Z := upd (if fn 0 =? DDEM then upd fn 0 5 else fn) 11 (case_flags ni b cf).
Lemma legal_bytes fn : legal fn -> bytes fn /\ fn 0 =? DDEM = false.
Proof.
  assert (B : forall c, sfn_byte c -> 32 <= c <= 126) by (intros c [->|[[A _] _]]; lia).
  intros L. split; [intros k|]; [specialize (L k); destruct (_ && _); [apply B in L; lia|lia]|]. specialize (L 0). cbn in L. apply B in L. unfold DDEM. lia.
Qed.
Lemma legal_spaces : legal (fun _ => 32).
Proof. intros k. destruct (_ && _); [left|]; auto. Qed.

Lemma form_lossy x cf ni b fn : cf = 0 \/ cf = 4 -> (ni = 8 /\ 0 <= b < 4) \/ (ni = 11 /\ 0 <= b < 16) -> legal fn -> ~ is_83 x -> form x (cf =? 4) (fin ni b (Z.lor cf 3) fn).
Proof.
  intros C P L N. destruct (legal_bytes fn L) as [B D]. unfold fin. rewrite D, flags_loss by auto.
  assert (V : (Z.lor cf 3 = 3 /\ (cf =? 4) = false) \/ (Z.lor cf 3 = 7 /\ (cf =? 4) = true)) by (destruct C as [-> | ->]; auto).
  assert (NO : forall body ext, split_name x body ext -> fits body ext -> False) by (intros; apply N; unfold is_83; eauto).
  constructor; rewrite ?upd_same.
  - intros k K. rewrite upd_other by lia. specialize (L k). now replace ((0 <=? k) && (k <? 11)) with true in L by lia.
  - intros k. unfold upd. destruct (k =? 11); [lia|apply B].
  - lia.
  - destruct V as [[-> ->]|[-> ->]]; reflexivity.
  - destruct V as [[-> _]|[-> _]]; cbn; tauto.
  - intros; exfalso; eauto.
  - intros _. destruct V as [[-> _]|[-> _]]; reflexivity.
  - intros; exfalso; eauto.
  - intros; exfalso; eauto.
  - intros _. destruct V as [[-> _]|[-> _]]; reflexivity.
Qed.

Lemma form_fits x body ext cf ni b fn : split_name x body ext -> fits body ext -> legal fn -> fm_flags (cf =? 4) body ext (case_flags ni b cf) -> (forall k, 0 <= k < 11 -> fn k = pad body ext k) -> form x (cf =? 4) (fin ni b cf fn).
Proof.
  intros S F L (V1 & V2 & V3 & V4 & V5 & V6) Q. destruct (legal_bytes fn L) as [B D]. unfold fin. rewrite D.
  assert (I : is_83 x) by (exists body, ext; auto).
  constructor; rewrite ?upd_same.
  - intros k K. rewrite upd_other by lia. specialize (L k). now replace ((0 <=? k) && (k <? 11)) with true in L by lia.
  - intros k. unfold upd. destruct (k =? 11); [lia|apply B].
  - lia.
  - auto.
  - rewrite V2. split; [discriminate|tauto].
  - intros b' e' S' _. destruct (split_unique x b' e' body ext S' S) as [-> ->]. auto.
  - tauto.
  - intros b' e' S' _ k K. destruct (split_unique x b' e' body ext S' S) as [-> ->]. rewrite upd_other by lia. auto.
  - intros b' e' S' _. destruct (split_unique x b' e' body ext S' S) as [-> ->]. auto.
  - auto.
Qed.

Lemma put_legal l : forall fn i, legal fn -> Forall sfn_char l -> 0 <= i -> i + zlen l <= 11 -> legal (put_at fn i (map up l)).
Proof.
  induction l as [|c l IH]; intros fn i L F I1 I2; cbn [map put_at]; [auto|]. rewrite zlen_cons in I2. pose proof (zlen_nonneg l). inversion F; subst.
  apply IH; [|auto|lia|lia]. apply legal_upd; [auto|lia|now apply up_byte].
Qed.
Lemma cbits_range l : 0 <= cbits l < 4.
Proof. unfold cbits. destruct (existsb is_up l), (existsb is_low l); lia. Qed.

Lemma sfn_dec c : sfn_char c \/ ~ sfn_char c.
Proof.
  unfold sfn_char. cbn [In]. lia.
Qed.
Lemma all_dec l : Forall sfn_char l \/ ~ Forall sfn_char l.
Proof.
  induction l as [|c l [IH|IH]]; [left; constructor| |right; intros F; inversion F; auto].
  destruct (sfn_dec c); [left; auto|right; intros F; inversion F; auto].
Qed.
Lemma zlen_map f x : zlen (map f x) = zlen x.
Proof. unfold zlen. now rewrite map_length. Qed.
Lemma nth_map_up l n : (n < length l)%nat -> nth n (map up l) 32 = nth n (map up l) 0.
Proof. intros. apply nth_indep. now rewrite map_length. Qed.

(* The short name of x; the end of a name is no space or dot. *)
Lemma form_ok lfn x cf : holds lfn x -> (length x <= 255)%nat -> xunits x -> x <> [] -> (forall y' u, x = y' ++ [u] -> ~ blank u) -> cf = 0 \/ cf = 4 ->
  exists k c1 di ni b cf' fn, lead_loop (Z.to_nat LFNBUF) lfn 0 = Ok k /\ rd lfn k = Ok c1 /\ dot_loop (Z.to_nat (zlen x)) lfn = Ok di /\
    sfn_loop 600 lfn k di 0 8 0 (if (0 <? k) || (c1 =? 46) then Z.lor cf 3 else cf) (fun _ => 32) = Ok (ni, b, cf', fn) /\ form x (cf =? 4) (fin ni b cf' fn).
Proof.
  intros H L U Ne Last C. pose proof (xunits_pos x U) as Up. pose proof (xunits_ge x U) as Ug. assert (Z255 : 1 <= zlen x <= 255) by (unfold zlen; destruct x; [congruence|cbn [length] in *; lia]).
  destruct (lead_ok lfn x H L (Z.to_nat LFNBUF) 0 ltac:(lia) ltac:(unfold LFNBUF; lia)) as (k & R1 & K1 & K2 & K3).
  assert (St : starts lfn x) by (intros j J; apply H; unfold zlen in J; lia).
  assert (Zl : Z.to_nat (zlen x) = length x) by (unfold zlen; lia).
  exists k, (xat x k). assert (L0 : legal (fun _ => 32)) by apply legal_spaces.
  assert (Any : forall di cf1, 0 <= di <= zlen x -> exists ni b cf' fn, sfn_loop 600 lfn k di 0 8 0 cf1 (fun _ => 32) = Ok (ni, b, cf', fn) /\ grown cf1 cf' /\ legal fn /\ ((ni = 8 /\ 0 <= b < 4) \/ (ni = 11 /\ 0 <= b < 16))).
  { intros di cf1 Di. apply (sfn_any lfn x); auto; lia. }
  assert (Bad : forall di, 0 <= di <= zlen x -> (exists ni b fn, sfn_loop 600 lfn k di 0 8 0 (if (0 <? k) || (xat x k =? 46) then Z.lor cf 3 else cf) (fun _ => 32) = Ok (ni, b, Z.lor cf 3, fn)) -> ~ is_83 x ->
    exists ni b cf' fn, sfn_loop 600 lfn k di 0 8 0 (if (0 <? k) || (xat x k =? 46) then Z.lor cf 3 else cf) (fun _ => 32) = Ok (ni, b, cf', fn) /\ form x (cf =? 4) (fin ni b cf' fn)).
  { intros di Di (ni & b & fn & E) N. destruct (Any di (if (0 <? k) || (xat x k =? 46) then Z.lor cf 3 else cf) Di) as (ni1 & b1 & cf1 & fn1 & E1 & G1 & G2 & G3). rewrite E in E1. injection E1 as <- <- <- <-.
    exists ni, b, (Z.lor cf 3), fn. split; [auto|]. apply form_lossy; auto. }
  assert (R2 : rd lfn k = Ok (xat x k)) by (apply rd_x; auto; lia). rewrite Zl.
  assert (Fst : xat x 0 = 32 \/ xat x 0 = 46 -> ~ is_83 x).
  { intros A (body & ext & Sp & F1 & F2 & F3 & F4). destruct body as [|c body]; [cbn in F1; lia|]. inversion F3 as [|? ? F5 F6]; subst.
    assert (xat x 0 = c) by (destruct Sp as [(<- & _)|(-> & _)]; reflexivity). destruct F5 as [F5 F7]. cbn in F7. lia. }
  destruct (Z.ltb_spec 0 k) as [Kp|Kz]; [|assert (k = 0) by lia; subst k; destruct (Z.eqb_spec (xat x 0) 46) as [E46|E46]]; cbn [orb] in *.
  - assert (Nd : exists di, dot_loop (length x) lfn = Ok di /\ 0 <= di <= zlen x).
    { destruct (dot_ok lfn x St L) as [[_ E]|(body & ext & E1 & _ & E2)]; [exists 0; split; [auto|lia]|]. exists (zlen body + 1). split; [auto|]. rewrite E1, zlen_app, zlen_cons. pose proof (zlen_nonneg ext). pose proof (zlen_nonneg body). lia. }
    destruct Nd as (di & E & Di). exists di. destruct (Bad di Di) as (ni & b & cf' & fn & A1 & A2).
    + destruct (Any di (Z.lor cf 3) Di) as (ni1 & b1 & cf1 & fn1 & E1 & G1 & _). apply grown_lor in G1. subst cf1. eauto.
    + apply Fst. left. apply K3. lia.
    + exists ni, b, cf', fn. auto.
  - assert (Nd : exists di, dot_loop (length x) lfn = Ok di /\ 0 <= di <= zlen x).
    { destruct (dot_ok lfn x St L) as [[_ E]|(body & ext & E1 & _ & E2)]; [exists 0; split; [auto|lia]|]. exists (zlen body + 1). split; [auto|]. rewrite E1, zlen_app, zlen_cons. pose proof (zlen_nonneg ext). pose proof (zlen_nonneg body). lia. }
    destruct Nd as (di & E & Di). exists di. destruct (Bad di Di) as (ni & b & cf' & fn & A1 & A2).
    + destruct (Any di (Z.lor cf 3) Di) as (ni1 & b1 & cf1 & fn1 & E1 & G1 & _). apply grown_lor in G1. subst cf1. eauto.
    + apply Fst. auto.
    + exists ni, b, cf', fn. auto.
  - destruct (dot_ok lfn x St L) as [[Nd E]|(body & ext & Ex & Nd & E)].
    + exists 0. assert (Sp : split_name x x []) by (left; auto).
      destruct (all_dec x) as [G|G]; [destruct (Z.leb_spec (zlen x) 8) as [G8|G8]|].
      * assert (F : fits x []) by (unfold zlen in *; split; [lia|]; split; [cbn; lia|]; auto).
        exists 8, (Z.lor 0 (cbits x)), cf, (put_at (fun _ => 32) 0 (map up x)). split; [auto|]. split; [auto|]. split; [auto|]. split.
        -- assert (N6 : exists m, 600%nat = (length x + S m)%nat) by (exists (599 - length x)%nat; lia). destruct N6 as [m ->].
           rewrite (run_good lfn x); auto; try lia. rewrite (sfn_step lfn x) by (auto; lia). cbv zeta. rewrite Z.add_0_l, xat_end. reflexivity.
        -- apply (form_fits x x []); auto.
           ++ apply put_legal; auto; lia.
           ++ rewrite Z.lor_0_l. now apply flags_body.
           ++ intros k K. rewrite put_at_ok, zlen_map. unfold pad. cbn [map]. rewrite Z.add_0_l, Z.sub_0_r.
              destruct (Z.ltb_spec k 8), (Z.ltb_spec k (zlen x)); replace (0 <=? k) with true by lia; cbn [andb]; try lia.
              ** symmetry. apply nth_map_up. unfold zlen in *. lia.
              ** rewrite nth_overflow; [auto|]. rewrite map_length. unfold zlen in *. lia.
              ** now destruct (Z.to_nat (k - 8)).
      * destruct (Bad 0 ltac:(lia)) as (ni & b & cf' & fn & A1 & A2).
        -- apply (run_bad lfn x) with (l := x); auto; try lia.
        -- intros (body & ext & S1 & F1 & _). destruct (split_unique x body ext x [] S1 Sp) as [-> _]. unfold zlen in *. lia.
        -- exists ni, b, cf', fn. auto.
      * destruct (Bad 0 ltac:(lia)) as (ni & b & cf' & fn & A1 & A2).
        -- apply (run_bad lfn x) with (l := x); auto; try lia; tauto.
        -- intros (body & ext & S1 & F1 & F2 & F3 & F4). destruct (split_unique x body ext x [] S1 Sp) as [-> _]. auto.
        -- exists ni, b, cf', fn. auto.
    + assert (Sp : split_name x body ext) by (right; auto).
      assert (Zx : zlen x = zlen body + 1 + zlen ext) by (rewrite Ex, zlen_app, zlen_cons; lia). pose proof (zlen_nonneg body). pose proof (zlen_nonneg ext).
      assert (Ne2 : 1 <= zlen ext) by (destruct ext; [exfalso; apply (Last body 46 Ex); right; auto|rewrite zlen_cons; pose proof (zlen_nonneg ext); lia]).
      assert (Nb : 1 <= zlen body) by (destruct body; [exfalso; apply E46; rewrite Ex; reflexivity|rewrite zlen_cons; pose proof (zlen_nonneg body); lia]).
      assert (Xb : forall j, 0 <= j < zlen body -> xat x (0 + j) = nth (Z.to_nat j) body 0) by (intros j J; rewrite Ex; unfold xat, zlen in *; rewrite app_nth1 by lia; f_equal; lia).
      assert (Xd : xat x (zlen body) = 46) by (rewrite Ex; apply xat_app0).
      assert (Xe : forall j, 0 <= j < zlen ext -> xat x (zlen body + 1 + j) = nth (Z.to_nat j) ext 0).
      { intros j J. rewrite Ex. change (body ++ 46 :: ext) with (body ++ [46] ++ ext). rewrite app_assoc. replace (zlen body + 1) with (zlen (body ++ [46])) by (rewrite zlen_app; reflexivity). now rewrite xat_app. }
      exists (zlen body + 1).
      destruct (all_dec body) as [G|G]; [destruct (Z.leb_spec (zlen body) 8) as [G8|G8]|].
      2: { destruct (Bad (zlen body + 1) ltac:(lia)) as (ni & b & cf' & fn & A1 & A2).
           - apply (run_bad lfn x) with (l := body); auto; try lia.
           - intros (b' & e' & S1 & F1 & _). destruct (split_unique x b' e' body ext S1 Sp) as [-> _]. unfold zlen in *. lia.
           - exists ni, b, cf', fn. auto. }
      2: { destruct (Bad (zlen body + 1) ltac:(lia)) as (ni & b & cf' & fn & A1 & A2).
           - apply (run_bad lfn x) with (l := body); auto; try lia; tauto.
           - intros (b' & e' & S1 & F1 & F2 & F3 & F4). destruct (split_unique x b' e' body ext S1 Sp) as [-> _]. auto.
           - exists ni, b, cf', fn. auto. }
      assert (Run : forall m, sfn_loop (length body + S m) lfn 0 (zlen body + 1) 0 8 0 cf (fun _ => 32) = sfn_loop m lfn (zlen body + 1) (zlen body + 1) 8 11 (cbits body * 4 mod 256) cf (put_at (fun _ => 32) 0 (map up body))).
      { intros m. rewrite (run_good lfn x); auto; try lia. rewrite (sfn_step lfn x) by (auto; lia). cbv zeta. rewrite Z.add_0_l, Xd, Z.lor_0_l. rewrite !Z.eqb_refl. cbn [negb]. replace (46 =? 0) with false by lia. replace (46 =? 32) with false by lia. cbn [andb orb]. rewrite ?andb_false_r, ?orb_true_r.
        replace (8 =? 11) with false by lia. now rewrite Z.ltb_irrefl. }
      assert (PL : legal (put_at (fun _ => 32) 0 (map up body))) by (apply put_legal; auto; lia).
      assert (N6 : exists m, 600%nat = (length body + S (length ext + S m))%nat) by (exists (598 - length body - length ext)%nat; unfold zlen in *; lia). destruct N6 as [m N6].
      pose proof (cbits_range body). 
      destruct (all_dec ext) as [Ge|Ge]; [destruct (Z.leb_spec (zlen ext) 3) as [G3|G3]|].
      * assert (F : fits body ext) by (unfold zlen in *; split; [lia|]; split; [lia|]; auto).
        exists 11, (Z.lor (cbits body * 4 mod 256) (cbits ext)), cf, (put_at (put_at (fun _ => 32) 0 (map up body)) 8 (map up ext)). split; [auto|]. split; [auto|]. split; [auto|]. split.
        -- rewrite N6, Run, (run_good lfn x); auto; try lia. rewrite (sfn_step lfn x) by (auto; lia). cbv zeta. rewrite <- Zx, xat_end. reflexivity.
        -- apply (form_fits x body ext); auto.
           ++ apply put_legal; auto; lia.
           ++ now apply flags_both.
           ++ intros k K. rewrite !put_at_ok, !zlen_map. unfold pad. rewrite Z.add_0_l, Z.sub_0_r. destruct (Z.ltb_spec k 8).
              ** replace ((8 <=? k) && (k <? 8 + zlen ext)) with false by lia. replace (0 <=? k) with true by lia. cbn [andb]. destruct (Z.ltb_spec k (zlen body)); [symmetry; apply nth_map_up; unfold zlen in *; lia|].
                 rewrite nth_overflow; [auto|]. rewrite map_length. unfold zlen in *. lia.
              ** replace (8 <=? k) with true by lia. cbn [andb]. destruct (Z.ltb_spec k (8 + zlen ext)); [symmetry; apply nth_map_up; unfold zlen in *; lia|].
                 replace ((0 <=? k) && (k <? zlen body)) with false by lia. rewrite nth_overflow; [auto|]. rewrite map_length. unfold zlen in *. lia.
      * destruct (Bad (zlen body + 1) ltac:(lia)) as (ni & b & cf' & fn & A1 & A2).
        -- rewrite N6, Run. apply (run_bad lfn x) with (l := ext); auto; try lia; try (unfold zlen in *; lia); try (rewrite Z.mod_small by lia; lia); try tauto.
        -- intros (b' & e' & S1 & F1 & F2 & F3 & F4). destruct (split_unique x b' e' body ext S1 Sp) as [_ ->]. unfold zlen in *. lia.
        -- exists ni, b, cf', fn. auto.
      * destruct (Bad (zlen body + 1) ltac:(lia)) as (ni & b & cf' & fn & A1 & A2).
        -- rewrite N6, Run. apply (run_bad lfn x) with (l := ext); auto; try lia; try (unfold zlen in *; lia); try (rewrite Z.mod_small by lia; lia); try tauto.
        -- intros (b' & e' & S1 & F1 & F2 & F3 & F4). destruct (split_unique x b' e' body ext S1 Sp) as [_ ->]. auto.
        -- exists ni, b, cf', fn. auto.
Qed.
