From Verif Require Import Base FutfModel FutfSpec FutfProof LfnModel LfnSpec LfnProof FdirModel FdirSpec FdirProof FnameModel FnameSpec.
Open Scope Z_scope.

(* --- the short name loop ------------------------------------------------------------------ *)

Definition xat (x : list Z) (j : Z) : Z := nth (Z.to_nat j) x 0.
Lemma zlen_nonneg x : 0 <= zlen x.
Proof. unfold zlen. lia. Qed.
Lemma zlen_app a b : zlen (a ++ b) = zlen a + zlen b.
Proof. unfold zlen. rewrite app_length. lia. Qed.
Lemma zlen_cons u x : zlen (u :: x) = zlen x + 1.
Proof. unfold zlen. cbn [length]. lia. Qed.
Lemma rd_x lfn x j : holds lfn x -> (length x <= 255)%nat -> 0 <= j <= zlen x -> rd lfn j = Ok (xat x j).
Proof.
  intros [H1 H2] L J. unfold rd, LFNBUF, zlen in *. replace ((0 <=? j) && (j <? 256)) with true by lia. f_equal. unfold xat.
  destruct (Z.eq_dec j (Z.of_nat (length x))) as [->|]; [rewrite H2, nth_overflow; [auto|lia]|apply H1; lia].
Qed.
Lemma xat_end x : xat x (zlen x) = 0.
Proof. unfold xat, zlen. apply nth_overflow. lia. Qed.
Lemma xat_pos x j : Forall (fun u => 0 < u < 65536) x -> 0 <= j < zlen x -> 0 < xat x j < 65536.
Proof. intros F J. rewrite Forall_forall in F. apply F, nth_In. unfold zlen in *. lia. Qed.
Lemma xat_app a b j : 0 <= j < zlen b -> xat (a ++ b) (zlen a + j) = xat b j.
Proof. intros J. unfold xat, zlen in *. rewrite app_nth2 by lia. f_equal. lia. Qed.
Lemma xat_app0 a u b : xat (a ++ u :: b) (zlen a) = u.
Proof. unfold xat, zlen. rewrite app_nth2 by lia. now replace (Z.to_nat (Z.of_nat (length a)) - length a)%nat with 0%nat by lia. Qed.

(* What a character becomes. *)
Definition keep (wc : Z) : bool := negb ((126 <? wc) || one_of wc BAD_SFN).
Lemma sfn_keep c : 0 < c < 65536 -> c <> 32 -> c <> 46 -> 32 <= c -> (sfn_char c <-> keep c = true).
Proof.
  intros H A B D. unfold sfn_char, keep, one_of, BAD_SFN. cbn [existsb In].
  destruct (Z.ltb_spec 126 c); cbn [orb negb]; [split; [lia|discriminate]|].
  split.
  - intros [_ N]. apply negb_true_iff. lia.
  - intros N. apply negb_true_iff in N. split; lia.
Qed.

(* Flags only grow by LOSS and LFN. *)
Definition grown (cf cf' : Z) : Prop := cf' = cf \/ cf' = Z.lor cf 3.
Lemma lor_idem a b : Z.lor (Z.lor a b) b = Z.lor a b.
Proof. rewrite <- Z.lor_assoc. now rewrite Z.lor_diag. Qed.
Lemma grown_trans a b c : grown a b -> grown b c -> grown a c.
Proof. unfold grown. intros [-> | ->] [-> | ->]; auto. right. apply lor_idem. Qed.
Lemma grown_lor a c : grown (Z.lor a 3) c -> c = Z.lor a 3.
Proof. intros [-> | ->]; [auto|]. apply lor_idem. Qed.

Definition legal (fn : Z -> Z) : Prop := forall k, if (0 <=? k) && (k <? 11) then sfn_byte (fn k) else fn k = 32.
Lemma legal_upd fn i c : legal fn -> 0 <= i < 11 -> sfn_byte c -> legal (upd fn i c).
Proof.
  intros L I C k. unfold upd. specialize (L k). destruct (Z.eqb_spec k i) as [->|]; [|auto]. now replace ((0 <=? i) && (i <? 11)) with true by lia.
Qed.
Lemma up_byte c : sfn_char c -> sfn_byte (up c).
Proof.
  intros [R N]. right. cbn [In] in N. unfold sfn_char, up, is_low. cbn [In]. destruct ((97 <=? c) && (c <=? 122)) eqn:Q; lia.
Qed.
Lemma nib_lor b v : 0 <= b < 16 -> (v = 0 \/ v = 1 \/ v = 2) -> 0 <= Z.lor b v < 16.
Proof.
  intros B V. assert (F : forallb (fun b => forallb (fun v => (0 <=? Z.lor b v) && (Z.lor b v <? 16)) [0; 1; 2]) (map Z.of_nat (seq 0 16)) = true) by reflexivity.
  rewrite forallb_forall in F. specialize (F b). rewrite in_map_iff in F. assert (X : exists n, Z.of_nat n = b /\ In n (seq 0 16)) by (exists (Z.to_nat b); split; [lia|apply in_seq; lia]). apply F in X.
  rewrite forallb_forall in X. specialize (X v). cbn [In] in X. assert (Y : 0 = v \/ 1 = v \/ 2 = v \/ False) by lia. apply X in Y. lia.
Qed.
Lemma small_lor b v : 0 <= b < 4 -> (v = 0 \/ v = 1 \/ v = 2) -> 0 <= Z.lor b v < 4.
Proof.
  intros B V. assert (F : forallb (fun b => forallb (fun v => (0 <=? Z.lor b v) && (Z.lor b v <? 4)) [0; 1; 2]) (map Z.of_nat (seq 0 4)) = true) by reflexivity.
  rewrite forallb_forall in F. specialize (F b). rewrite in_map_iff in F. assert (X : exists n, Z.of_nat n = b /\ In n (seq 0 4)) by (exists (Z.to_nat b); split; [lia|apply in_seq; lia]). apply F in X.
  rewrite forallb_forall in X. specialize (X v). cbn [In] in X. assert (Y : 0 = v \/ 1 = v \/ 2 = v \/ False) by lia. apply X in Y. lia.
Qed.
Definition cbits (l : list Z) : Z := (if existsb is_up l then 2 else 0) + (if existsb is_low l then 1 else 0).
Fixpoint put_at (fn : Z -> Z) (i : Z) (l : list Z) : Z -> Z :=
  match l with [] => fn | c :: l => put_at (upd fn i c) (i + 1) l end.
Lemma put_at_ok l : forall fn i k, put_at fn i l k = if (i <=? k) && (k <? i + zlen l) then nth (Z.to_nat (k - i)) l 0 else fn k.
Proof.
  induction l as [|c l IH]; intros fn i k; cbn [put_at].
  - unfold zlen. cbn [length]. now replace ((i <=? k) && (k <? i + Z.of_nat 0)) with false by lia.
  - rewrite IH, zlen_cons. pose proof (zlen_nonneg l). unfold upd. destruct (Z.eqb_spec k i) as [->|].
    + replace ((i + 1 <=? i) && (i <? i + 1 + zlen l)) with false by lia. replace ((i <=? i) && (i <? i + (zlen l + 1))) with true by lia. now rewrite Z.sub_diag.
    + destruct ((i + 1 <=? k) && (k <? i + 1 + zlen l)) eqn:Q; [|now replace ((i <=? k) && (k <? i + (zlen l + 1))) with false by lia].
      replace ((i <=? k) && (k <? i + (zlen l + 1))) with true by lia. replace (Z.to_nat (k - i)) with (S (Z.to_nat (k - (i + 1)))) by lia. reflexivity.
Qed.
Lemma cbits_cons b c l : Z.lor (Z.lor b (if is_up c then 2 else if is_low c then 1 else 0)) (cbits l) = Z.lor b (cbits (c :: l)).
Proof.
  rewrite <- Z.lor_assoc. f_equal. unfold cbits. cbn [existsb]. assert (N : is_up c = true -> is_low c = false) by (unfold is_up, is_low; lia).
  destruct (is_up c) eqn:U; [rewrite N by auto|destruct (is_low c)]; destruct (existsb is_up l), (existsb is_low l); reflexivity.
Qed.

Section Loop.
Variables (lfn : Z -> Z) (x : list Z).
Hypothesis Hx : holds lfn x.
Hypothesis Lx : (length x <= 255)%nat.
Hypothesis Xu : Forall (fun u => 0 < u < 65536) x.
Hypothesis X32 : Forall (fun u => 32 <= u) x.

Lemma sfn_step fuel si di i ni b cf fn : 0 <= si <= zlen x -> sfn_loop (S fuel) lfn si di i ni b cf fn =
      let wc := xat x si in
      if wc =? 0 then Ok (ni, b, cf, fn)
      else if (wc =? 32) || (wc =? 46) && negb (si + 1 =? di) then sfn_loop fuel lfn (si + 1) di i ni b (Z.lor cf 3) fn
      else if (ni <=? i) || (si + 1 =? di) then
        if ni =? 11 then Ok (ni, b, Z.lor cf 3, fn)
        else
          let cf := if si + 1 =? di then cf else Z.lor cf 3 in
          if di <? si + 1 then Ok (ni, b, cf, fn)
          else sfn_loop fuel lfn di di 8 11 (b * 4 mod 256) cf fn
      else if keep wc then sfn_loop fuel lfn (si + 1) di (i + 1) ni (Z.lor b (if is_up wc then 2 else if is_low wc then 1 else 0)) cf (upd fn i (up wc))
      else sfn_loop fuel lfn (si + 1) di (i + 1) ni b (Z.lor cf 3) (upd fn i 95).
Proof.
  intros S1. cbn [sfn_loop]. rewrite (rd_x lfn x) by auto. cbn [bind]. cbv zeta. set (wc := xat x si).
  destruct (wc =? 0); [auto|]. destruct (_ || _); [auto|]. destruct (_ || _); [auto|]. unfold keep. destruct (_ || _); cbn [negb]; [auto|].
  unfold is_up, is_low, up. destruct (Z.leb_spec 65 wc), (Z.leb_spec wc 90), (Z.leb_spec 97 wc), (Z.leb_spec wc 122); cbn [andb]; rewrite ?Z.lor_0_r; try lia; reflexivity.
Qed.

Lemma x_ge j : 0 <= j < zlen x -> 32 <= xat x j.
Proof. intros J. pose proof X32 as Q. rewrite Forall_forall in Q. apply Q, nth_In. unfold zlen in *. lia. Qed.

(* Any name: the loop ends, with a legal short name. *)
Lemma sfn_any di : 0 <= di <= zlen x -> forall fuel si i ni b cf fn, 0 <= si <= zlen x -> (Z.to_nat (zlen x - si) < fuel)%nat ->
  (ni = 8 /\ 0 <= i <= 8 /\ 0 <= b < 4) \/ (ni = 11 /\ 8 <= i <= 11 /\ 0 <= b < 16) -> legal fn ->
  exists ni' b' cf' fn', sfn_loop fuel lfn si di i ni b cf fn = Ok (ni', b', cf', fn') /\ grown cf cf' /\ legal fn' /\ ((ni' = 8 /\ 0 <= b' < 4) \/ (ni' = 11 /\ 0 <= b' < 16)).
Proof.
  intros Di. induction fuel as [|fuel IH]; intros si i ni b cf fn S1 F P L; [lia|]. rewrite sfn_step by auto. cbv zeta.
  assert (Done : forall cf1, grown cf cf1 -> exists ni' b' cf' fn', Ok (ni, b, cf1, fn) = Ok (ni', b', cf', fn') /\ grown cf cf' /\ legal fn' /\ ((ni' = 8 /\ 0 <= b' < 4) \/ (ni' = 11 /\ 0 <= b' < 16))).
  { intros cf1 G. exists ni, b, cf1, fn. split; [auto|]. split; [auto|]. split; [auto|]. lia. }
  destruct (Z.eqb_spec (xat x si) 0) as [E|E]; [apply Done; left; auto|].
  assert (S2 : si < zlen x) by (destruct (Z.eq_dec si (zlen x)) as [->|]; [rewrite xat_end in E; lia|lia]).
  pose proof (xat_pos x si Xu ltac:(lia)) as Xp. pose proof (x_ge si ltac:(lia)) as Xg.
  assert (Rec : forall si1 i1 ni1 b1 cf1 fn1, si < si1 <= zlen x -> (ni1 = 8 /\ 0 <= i1 <= 8 /\ 0 <= b1 < 4) \/ (ni1 = 11 /\ 8 <= i1 <= 11 /\ 0 <= b1 < 16) -> grown cf cf1 -> legal fn1 ->
    exists ni' b' cf' fn', sfn_loop fuel lfn si1 di i1 ni1 b1 cf1 fn1 = Ok (ni', b', cf', fn') /\ grown cf cf' /\ legal fn' /\ ((ni' = 8 /\ 0 <= b' < 4) \/ (ni' = 11 /\ 0 <= b' < 16))).
  { intros si1 i1 ni1 b1 cf1 fn1 Q1 Q2 Q3 Q4. destruct (IH si1 i1 ni1 b1 cf1 fn1 ltac:(lia) ltac:(lia) Q2 Q4) as (a1 & a2 & a3 & a4 & E1 & G & R). exists a1, a2, a3, a4. split; [auto|]. split; [eapply grown_trans; eauto|auto]. }
  destruct (Z.eqb_spec (xat x si) 32) as [E32|E32]; cbn [orb]; [apply Rec; [lia|lia|right; auto|auto]|].
  destruct ((xat x si =? 46) && negb (si + 1 =? di)) eqn:Q46; [apply Rec; [lia|lia|right; auto|auto]|].
  destruct ((ni <=? i) || (si + 1 =? di)) eqn:Qe.
  - destruct (Z.eqb_spec ni 11); [apply Done; right; auto|]. destruct (Z.ltb_spec di (si + 1)).
    + apply Done. destruct (si + 1 =? di); [left|right]; auto.
    + apply Rec; [lia| |destruct (si + 1 =? di); [left|right]; auto|auto]. right. split; [auto|]. split; [lia|]. assert (0 <= b < 4) by lia. rewrite Z.mod_small; lia.
  - assert (Ei : i < ni /\ si + 1 <> di) by lia. assert (E46 : xat x si <> 46) by lia.
    destruct (keep (xat x si)) eqn:K.
    + apply Rec; [lia| |left; auto|].
      * assert (V : forall c, (if is_up c then 2 else if is_low c then 1 else 0) = 0 \/ (if is_up c then 2 else if is_low c then 1 else 0) = 1 \/ (if is_up c then 2 else if is_low c then 1 else 0) = 2) by (intros c; destruct (is_up c), (is_low c); auto).
        destruct P as [(-> & P1 & P2)|(-> & P1 & P2)]; [left|right]; (split; [auto|]; split; [lia|]).
        -- now apply small_lor.
        -- now apply nib_lor.
      * apply legal_upd; [auto|lia|]. apply up_byte, sfn_keep; auto.
    + apply Rec; [lia|lia|right; auto|]. apply legal_upd; [auto|lia|]. right. unfold sfn_char, is_low. cbn. lia.
Qed.

(* Characters that fit are taken as they are. *)
Lemma run_good l : forall fuel si di i ni b cf fn, (forall j, 0 <= j < zlen l -> xat x (si + j) = nth (Z.to_nat j) l 0) -> 0 <= si -> si + zlen l <= zlen x -> Forall sfn_char l -> i + zlen l <= ni -> (di <= si \/ si + zlen l < di) ->
  sfn_loop (length l + fuel) lfn si di i ni b cf fn = sfn_loop fuel lfn (si + zlen l) di (i + zlen l) ni (Z.lor b (cbits l)) cf (put_at fn i (map up l)).
Proof.
  induction l as [|c l IH]; intros fuel si di i ni b cf fn X S1 S2 G I D.
  - unfold zlen, cbits. cbn [length map existsb put_at Nat.add]. rewrite Z.lor_0_r, !Z.add_0_r. auto.
  - rewrite zlen_cons in *. pose proof (zlen_nonneg l). inversion G as [|? ? G1 G2]; subst. cbn [length Nat.add]. rewrite sfn_step by lia. cbv zeta.
    assert (Xc : xat x si = c) by (specialize (X 0 ltac:(lia)); now rewrite Z.add_0_r in X). rewrite Xc.
    assert (C : 33 <= c <= 126 /\ c <> 46) by (destruct G1 as [G1 G3]; split; [auto|]; intros ->; apply G3; cbn; tauto).
    replace (c =? 0) with false by lia. replace (c =? 32) with false by lia. replace (c =? 46) with false by lia. cbn [andb orb]. replace ((ni <=? i) || (si + 1 =? di)) with false by lia.
    replace (keep c) with true by (symmetry; apply sfn_keep; [lia|lia|lia|lia|auto]).
    rewrite IH; [|intros j J; replace (si + 1 + j) with (si + (j + 1)) by lia; rewrite X by lia; replace (Z.to_nat (j + 1)) with (S (Z.to_nat j)) by lia; reflexivity|lia|lia|auto|lia|lia].
    rewrite cbits_cons. cbn [map put_at]. f_equal; lia.
Qed.

(* Otherwise there is a loss. *)
Lemma run_bad l : forall fuel si di i ni b cf fn, 0 <= di <= zlen x -> (forall j, 0 <= j < zlen l -> xat x (si + j) = nth (Z.to_nat j) l 0) -> 0 <= si -> si + zlen l <= zlen x ->
  (Z.to_nat (zlen x - si) < fuel)%nat -> (ni = 8 /\ 0 <= i <= 8 /\ 0 <= b < 4) \/ (ni = 11 /\ 8 <= i <= 11 /\ 0 <= b < 16) -> legal fn ->
  (di <= si \/ si + zlen l < di) -> ~ (Forall sfn_char l /\ i + zlen l <= ni) ->
  exists ni' b' fn', sfn_loop fuel lfn si di i ni b cf fn = Ok (ni', b', Z.lor cf 3, fn').
Proof.
  induction l as [|c l IH]; intros fuel si di i ni b cf fn Di X S1 S2 F P L D N.
  - exfalso. apply N. split; [constructor|]. unfold zlen. cbn [length]. lia.
  - rewrite zlen_cons in *. pose proof (zlen_nonneg l). destruct fuel as [|fuel]; [lia|]. rewrite sfn_step by lia. cbv zeta.
    assert (Xc : xat x si = c) by (specialize (X 0 ltac:(lia)); now rewrite Z.add_0_r in X).
    pose proof (xat_pos x si Xu ltac:(lia)) as Xp. pose proof (x_ge si ltac:(lia)) as Xg. rewrite Xc in *.
    assert (Lossy : forall si1 i1 ni1 b1 fn1, si < si1 <= zlen x -> (ni1 = 8 /\ 0 <= i1 <= 8 /\ 0 <= b1 < 4) \/ (ni1 = 11 /\ 8 <= i1 <= 11 /\ 0 <= b1 < 16) -> legal fn1 ->
      exists ni' b' fn', sfn_loop fuel lfn si1 di i1 ni1 b1 (Z.lor cf 3) fn1 = Ok (ni', b', Z.lor cf 3, fn')).
    { intros si1 i1 ni1 b1 fn1 Q1 Q2 Q3. destruct (sfn_any di Di fuel si1 i1 ni1 b1 (Z.lor cf 3) fn1 ltac:(lia) ltac:(lia) Q2 Q3) as (a1 & a2 & a3 & a4 & E & G & _). apply grown_lor in G. subst a3. eauto. }
    replace (c =? 0) with false by lia. destruct (Z.eqb_spec c 32) as [E32|E32]; cbn [orb]; [apply Lossy; [lia|auto|auto]|].
    replace (si + 1 =? di) with false by lia. cbn [negb]. rewrite andb_true_r, orb_false_r. destruct (Z.eqb_spec c 46) as [E46|E46]; [apply Lossy; [lia|auto|auto]|].
    destruct (Z.leb_spec ni i) as [Ni|Ni].
    + destruct (Z.eqb_spec ni 11); [eauto|]. destruct (Z.ltb_spec di (si + 1)); [eauto|]. apply Lossy; [lia| |auto]. right. split; [auto|]. split; [lia|]. rewrite Z.mod_small; lia.
    + destruct (keep c) eqn:K.
      * apply IH; [auto| |lia|lia|lia| | |lia|].
        -- intros j J. replace (si + 1 + j) with (si + (j + 1)) by lia. rewrite X by lia. replace (Z.to_nat (j + 1)) with (S (Z.to_nat j)) by lia. reflexivity.
        -- assert (V : (if is_up c then 2 else if is_low c then 1 else 0) = 0 \/ (if is_up c then 2 else if is_low c then 1 else 0) = 1 \/ (if is_up c then 2 else if is_low c then 1 else 0) = 2) by (destruct (is_up c), (is_low c); auto).
           destruct P as [(-> & P1 & P2)|(-> & P1 & P2)]; [left|right]; (split; [auto|]; split; [lia|]); [now apply small_lor|now apply nib_lor].
        -- apply legal_upd; [auto|lia|]. apply up_byte, sfn_keep; auto.
        -- intros [N1 N2]. apply N. split; [|lia]. constructor; [|auto]. apply sfn_keep; auto.
      * apply Lossy; [lia|lia|]. apply legal_upd; [auto|lia|]. right. unfold sfn_char, is_low. cbn. lia.
Qed.
End Loop.
