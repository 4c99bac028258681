From Verif Require Import Base DiskProof Uf2Model Uf2Spec.
Open Scope Z_scope.

Definition flashb (b : block) : bool := negb (bit (flags b) NOFLASH).
Lemma flashb_f b : flash_block b -> flashb b = true.
Proof. intros (_ & F & _). unfold flashb, bit. rewrite F. reflexivity. Qed.
Lemma flashb_c b : comment b -> flashb b = false.
Proof. intros F. unfold flashb, bit, comment in *. replace (Z.land (flags b) NOFLASH =? 0) with false by lia. reflexivity. Qed.

Definition fam1 (f : Z) (b : block) : Z := if bit (flags b) FAMILY && (f =? 0) then reserved b else f.
Lemma family_cons b bs : family (b :: bs) = if flashb b && bit (flags b) FAMILY && negb (reserved b =? 0) then reserved b else family bs.
Proof. unfold family. cbn [find]. fold (flashb b). destruct (_ && _ && _); auto. Qed.

Lemma scan_good b a p f : flash_block b -> 0 <= p -> scan_block b (a, p, f) = Some (Z.min a (addr b), Z.max p (addr b + psize b), fam1 f b).
Proof.
  intros ((M0 & M1 & ME) & _ & A & P & S) Pp. unfold scan_block. rewrite M0, M1, ME, !Z.eqb_refl. cbn [negb orb]. unfold uns. rewrite Z.mod_small by lia. 
  replace (if addr b <? a then addr b else a) with (Z.min a (addr b)) by (destruct (Z.ltb_spec (addr b) a); lia). replace (if p <? addr b + psize b then addr b + psize b else p) with (Z.max p (addr b + psize b)) by (destruct (Z.ltb_spec p (addr b + psize b)); lia). reflexivity.
Qed.

Definition lows (bs : list block) (a : Z) : Z := fold_left (fun a b => if flashb b then Z.min a (addr b) else a) bs a.
Definition highs (bs : list block) (p : Z) : Z := fold_left (fun p b => if flashb b then Z.max p (addr b + psize b) else p) bs p.
Lemma lows_spec bs : forall a, Forall (fun b => flash_block b \/ comment b) bs -> lows bs a <= a /\ (forall b, In b bs -> flash_block b -> lows bs a <= addr b) /\ (lows bs a = a \/ exists b, In b bs /\ flash_block b /\ addr b = lows bs a).
Proof.
  induction bs as [|b bs IH]; intros a F; cbn [lows fold_left]; [split; [lia|]; split; [intros b []|auto]|]. inversion F as [|? ? Fb Fs]; subst.
  destruct (IH (if flashb b then Z.min a (addr b) else a) Fs) as (L & A & W). fold (lows bs (if flashb b then Z.min a (addr b) else a)) in *. set (r := lows bs _) in *. split; [destruct (flashb b); lia|]. split.
  - intros c [<-|C] FB; [rewrite (flashb_f _ FB) in L; lia|auto].
  - destruct W as [W|(c & C & FC & E)]; [|right; exists c; split; [right; auto|auto]]. destruct Fb as [Fb|Fb]; [rewrite (flashb_f _ Fb) in *|rewrite (flashb_c _ Fb) in *; auto].
    destruct (Z.min_spec a (addr b)) as [[? M]|[? M]]; [left; lia|right; exists b; split; [left; auto|split; [auto|lia]]].
Qed.
Lemma highs_spec bs : forall a, Forall (fun b => flash_block b \/ comment b) bs -> a <= highs bs a /\ (forall b, In b bs -> flash_block b -> addr b + psize b <= highs bs a) /\ (highs bs a = a \/ exists b, In b bs /\ flash_block b /\ addr b + psize b = highs bs a).
Proof.
  induction bs as [|b bs IH]; intros a F; cbn [highs fold_left]; [split; [lia|]; split; [intros b []|auto]|]. inversion F as [|? ? Fb Fs]; subst.
  destruct (IH (if flashb b then Z.max a (addr b + psize b) else a) Fs) as (L & A & W). fold (highs bs (if flashb b then Z.max a (addr b + psize b) else a)) in *. set (r := highs bs _) in *. split; [destruct (flashb b); lia|]. split.
  - intros c [<-|C] FB; [rewrite (flashb_f _ FB) in L; lia|auto].
  - destruct W as [W|(c & C & FC & E)]; [|right; exists c; split; [right; auto|auto]]. destruct Fb as [Fb|Fb]; [rewrite (flashb_f _ Fb) in *|rewrite (flashb_c _ Fb) in *; auto].
    destruct (Z.max_spec a (addr b + psize b)) as [[? M]|[? M]]; [right; exists b; split; [left; auto|split; [auto|lia]]|left; lia].
Qed.

Lemma not_last c : 0 <= bno c < 4294967295 -> bno c + 1 <> bnum c -> is_last c = false.
Proof. intros A B. unfold is_last, uns. rewrite Z.mod_small by lia. lia. Qed.
Lemma yes_last c : 0 <= bno c < 4294967295 -> bno c + 1 = bnum c -> is_last c = true.
Proof. intros A B. unfold is_last, uns. rewrite Z.mod_small by lia. lia. Qed.

Lemma locate b rest : flash_block b -> is_last b = true -> forall pre a p f, 0 <= p -> Forall (fun c => flash_block c \/ comment c) pre -> Forall (fun c => flash_block c -> 0 <= bno c < 4294967295 /\ bno c + 1 <> bnum c) pre ->
  get_location (pre ++ b :: rest) (a, p, f) = Some (lows (pre ++ [b]) a, highs (pre ++ [b]) p, if f =? 0 then family (pre ++ [b]) else f) /\ kept (pre ++ b :: rest) = (pre ++ [b], true).
Proof.
  intros Fb Lb. induction pre as [|c pre IH]; intros a p f P F N; cbn [app get_location kept].
  - rewrite Lb. fold (flashb b). pose proof (flashb_f _ Fb) as X. unfold flashb in X. replace (bit (flags b) NOFLASH) with false by (destruct (bit (flags b) NOFLASH); [discriminate|auto]).
    rewrite scan_good by auto. unfold lows, highs. cbn [fold_left]. rewrite (flashb_f _ Fb). split; [|reflexivity]. rewrite family_cons, (flashb_f _ Fb). unfold family, fam1. cbn [find andb].
    destruct (bit (flags b) FAMILY), (Z.eqb_spec f 0), (Z.eqb_spec (reserved b) 0); cbn; repeat f_equal; congruence.
  - inversion F as [|? ? Fc Fp]; subst. inversion N as [|? ? Nc Np]; subst. fold (flashb c). destruct Fc as [Fc|Fc].
    + destruct (Nc Fc) as [Nb Nn]. rewrite (not_last _ Nb Nn). pose proof (flashb_f _ Fc) as X. pose proof X as Y. unfold flashb in Y. replace (bit (flags c) NOFLASH) with false by (destruct (bit (flags c) NOFLASH); [discriminate|auto]).
      rewrite scan_good by auto. cbn [negb andb]. destruct (IH (Z.min a (addr c)) (Z.max p (addr c + psize c)) (fam1 f c)) as [E1 E2]; [lia|auto|auto|]. rewrite E1, E2. split; [|now rewrite andb_false_r].
      unfold lows, highs. cbn [fold_left]. rewrite X. f_equal. f_equal. rewrite family_cons, X. unfold fam1. cbn [andb].
destruct (Z.eqb_spec f 0) as [-> |Nf].
      * destruct (bit (flags c) FAMILY); cbn [andb]; auto. destruct (reserved c =? 0); auto.
      * rewrite andb_false_r. now replace (f =? 0) with false by lia.
    + pose proof (flashb_c _ Fc) as X. pose proof X as Y. unfold flashb in Y. replace (bit (flags c) NOFLASH) with true by (destruct (bit (flags c) NOFLASH); [auto|discriminate]). cbn [negb andb].
      destruct (IH a p f P Fp Np) as [E1 E2]. rewrite E1, E2. split; [|now rewrite X]. unfold lows, highs. cbn [fold_left]. rewrite X, family_cons, X. auto.
Qed.

(* Loading *)
Lemma flashed_app bs cs : flashed (bs ++ cs) = fold_left (fun f b => load b f) cs (flashed bs).
Proof. unfold flashed. apply fold_left_app. Qed.
Lemma load_miss cs : forall f x, Forall (fun b => ~ addr b <= x < addr b + psize b) cs -> fold_left (fun f b => load b f) cs f x = f x.
Proof.
  induction cs as [|b cs IH]; intros f x F; cbn [fold_left]; [auto|]. inversion F as [|? ? Fb Fs]; subst. rewrite IH by auto. unfold load.
  destruct (Z.leb_spec (addr b) x), (Z.ltb_spec x (addr b + psize b)); rewrite ?andb_false_r; auto; lia.
Qed.
Lemma flashed_in bs lo hi x : Forall (fun b => flash_block b \/ comment b) bs -> extent bs lo hi -> flashed bs x <> None -> lo <= x < hi.
Proof.
  intros F (_ & _ & X) N. unfold flashed in N.
  assert (G : forall cs f, (forall c, In c cs -> In c bs) -> fold_left (fun f b => load b f) cs f x <> None -> f x <> None \/ lo <= x < hi).
  { induction cs as [|c cs IH]; intros f I Q; cbn [fold_left] in Q; [auto|]. destruct (IH (load c f) (fun d D => I d (or_intror D)) Q) as [Q'|Q']; [|auto].
    unfold load in Q'. destruct (_ && _) eqn:B; [|auto]. right. rewrite Forall_forall in F. destruct (F c (I c (or_introl eq_refl))) as [Fc|Fc]; [|exfalso; apply flashb_c in Fc; unfold flashb in Fc; rewrite Fc in B; discriminate].
    specialize (X c (I c (or_introl eq_refl)) Fc). lia. }
  destruct (G bs (fun _ => None) (fun c C => C) N) as [Q|Q]; [congruence|auto].
Qed.

Lemma sector_ok address fam d : 0 <= address -> address + 4096 <= 4294967296 ->
  (forall b, In b (write_sector address fam d) -> exists k, 0 <= k < 16 /\ b = sector_block address fam d k /\ addr b = address + 256 * k) /\
  (forall f x, fold_left (fun f b => load b f) (write_sector address fam d) f x = if (address <=? x) && (x <? address + 4096) then Some (d (x - address)) else f x).
Proof.
  intros A B. assert (I : forall b, In b (write_sector address fam d) -> exists k, 0 <= k < 16 /\ b = sector_block address fam d k /\ addr b = address + 256 * k).
  { intros b Ib. unfold write_sector in Ib. apply in_map_iff in Ib as (k & <- & K). exists k. assert (0 <= k < 16) by (cbn in K; lia). split; [auto|]. split; [auto|]. cbn. unfold uns. rewrite Z.mod_small; lia. }
  split; [auto|]. intros f x. destruct (Z.leb_spec address x); cbn [andb]; [destruct (Z.ltb_spec x (address + 4096))|].
  - set (k := (x - address) / 256). assert (K : 0 <= k < 16 /\ address + 256 * k <= x < address + 256 * k + 256) by (unfold k; Z.to_euclidean_division_equations; lia).
    assert (Sp : exists l1 l2, [0; 1; 2; 3; 4; 5; 6; 7; 8; 9; 10; 11; 12; 13; 14; 15] = l1 ++ k :: l2 /\ Forall (fun j => k < j < 16) l2).
    { exists (firstn (Z.to_nat k) [0; 1; 2; 3; 4; 5; 6; 7; 8; 9; 10; 11; 12; 13; 14; 15]), (skipn (S (Z.to_nat k)) [0; 1; 2; 3; 4; 5; 6; 7; 8; 9; 10; 11; 12; 13; 14; 15]).
      clearbody k. assert (D : k = 0 \/ k = 1 \/ k = 2 \/ k = 3 \/ k = 4 \/ k = 5 \/ k = 6 \/ k = 7 \/ k = 8 \/ k = 9 \/ k = 10 \/ k = 11 \/ k = 12 \/ k = 13 \/ k = 14 \/ k = 15) by lia.
      clear - D. repeat (destruct D as [-> |D]; [split; [reflexivity|repeat constructor]|]). subst. split; [reflexivity|repeat constructor]. }
    destruct Sp as (l1 & l2 & Sp & F2). unfold write_sector. rewrite Sp, map_app, fold_left_app. cbn [map fold_left].
    rewrite load_miss.
    + unfold load at 1. cbn [flags addr psize data sector_block]. unfold uns. rewrite Z.mod_small by lia.
      assert (Nf : bit (if fam =? 0 then 0 else FAMILY) NOFLASH = false) by (destruct (fam =? 0); reflexivity). rewrite Nf. cbn [negb andb].
      replace ((address + 256 * k <=? x) && (x <? address + 256 * k + 256)) with true by lia. replace ((0 <=? x - (address + 256 * k)) && (x - (address + 256 * k) <? 256)) with true by lia. do 2 f_equal. lia.
    + rewrite Forall_forall in *. intros b Bi. apply in_map_iff in Bi as (j & <- & J). specialize (F2 j J). cbn. unfold uns. rewrite Z.mod_small by lia. lia.
  - apply load_miss. rewrite Forall_forall. intros b Bi. destruct (I b Bi) as (k & K & -> & E). rewrite E. cbn. lia.
  - apply load_miss. rewrite Forall_forall. intros b Bi. destruct (I b Bi) as (k & K & -> & E). rewrite E. cbn. lia.
Qed.

Lemma image_le img : forall from n, image_ok img from n -> Forall (fun p => from <= fst p < n) img.
Proof. induction img as [|[s d] img IH]; intros from n H; constructor; cbn in *; [lia|]. destruct H as [A B]. apply IH in B. revert B. apply Forall_impl. intros p. lia. Qed.

Definition put_image (base fam : Z) (img : list (Z * (Z -> Z))) : list block := flat_map (fun p => write_sector (base + 4096 * fst p) fam (snd p)) img.
Lemma image_loads base fam n : 0 <= base -> forall img from, 0 <= from -> image_ok img from n -> base + 4096 * n <= 4294967296 ->
  forall f, let f' := fold_left (fun f b => load b f) (put_image base fam img) f in
    (forall s d k, In (s, d) img -> 0 <= k < 4096 -> f' (base + 4096 * s + k) = Some (d k)) /\
    (forall x, (forall s d, In (s, d) img -> ~ base + 4096 * s <= x < base + 4096 * s + 4096) -> f' x = f x).
Proof.
  intros B. induction img as [|[s d] img IH]; intros from F I L f f'.
  - split; [intros s d k []|]. auto.
  - cbn [image_ok] in I. destruct I as [I1 I2]. unfold f', put_image. cbn [flat_map fst snd]. fold (put_image base fam img). rewrite fold_left_app.
    destruct (sector_ok (base + 4096 * s) fam d ltac:(lia) ltac:(lia)) as [_ S]. pose proof (image_le _ _ _ I2) as IL. rewrite Forall_forall in IL.
    set (f1 := fold_left (fun f b => load b f) (write_sector (base + 4096 * s) fam d) f). destruct (IH (s + 1) ltac:(lia) I2 L f1) as [H1 H2]. split.
    + intros s' d' k [E|E] K; [|apply H1; auto]. injection E as <- <-. rewrite H2; [|intros s' d' E; specialize (IL _ E); cbn in IL; lia]. unfold f1. rewrite S. replace ((base + 4096 * s <=? base + 4096 * s + k) && (base + 4096 * s + k <? base + 4096 * s + 4096)) with true by lia. do 2 f_equal. lia.
    + intros x X. rewrite H2 by (intros s' d' E; apply (X s' d'); right; auto). unfold f1. rewrite S. specialize (X s d (or_introl eq_refl)). replace ((base + 4096 * s <=? x) && (x <? base + 4096 * s + 4096)) with false by lia. auto.
Qed.
Lemma image_blocks base fam n : 0 <= base -> forall img from, 0 <= from -> image_ok img from n -> base + 4096 * n <= 4294836224 -> Forall (fs_block fam) (put_image base fam img).
Proof.
  intros B. induction img as [|[s d] img IH]; intros from F I L; [constructor|]. cbn [image_ok] in I. destruct I as [I1 I2]. unfold put_image. cbn [flat_map fst snd]. fold (put_image base fam img). apply Forall_app. split; [|apply (IH (s + 1)); auto; lia].
  destruct (sector_ok (base + 4096 * s) fam d ltac:(lia) ltac:(lia)) as [S _]. rewrite Forall_forall. intros b Bi. destruct (S b Bi) as (k & K & E & A). rewrite E in *. cbn [addr sector_block] in A.
  unfold fs_block, flash_block, good. cbn [magic0 magic1 magicE addr psize flags bno bnum reserved sector_block]. rewrite A. repeat split; auto; try lia; destruct (Z.eqb_spec fam 0); auto.
Qed.

Lemma image_order base fam n : 0 <= base -> forall img from, 0 <= from -> image_ok img from n -> base + 4096 * n <= 4294967296 -> forall i b, nth_error (put_image base fam img) i = Some b ->
  bno b = Z.of_nat i mod 16 /\ exists s d, nth_error img (Nat.div i 16) = Some (s, d) /\ addr b = base + 4096 * s + 256 * bno b.
Proof.
  intros B. induction img as [|[s d] img IH]; intros from F I L i b E; [destruct i; discriminate|]. cbn [image_ok] in I. destruct I as [I1 I2]. unfold put_image in E. cbn [flat_map fst snd] in E. fold (put_image base fam img) in E.
  assert (Ln : length (write_sector (base + 4096 * s) fam d) = 16%nat) by reflexivity. destruct (Nat.lt_ge_cases i 16) as [Li|Gi].
  - rewrite nth_error_app1 in E by lia. rewrite Nat.div_small by auto. split; [|exists s, d; split; [auto|]].
    + do 16 (destruct i as [|i]; [injection E as <-; reflexivity|]). lia.
    + assert (K : forall k, 0 <= k < 16 -> addr (sector_block (base + 4096 * s) fam d k) = base + 4096 * s + 256 * bno (sector_block (base + 4096 * s) fam d k)) by (intros k K; cbn; unfold uns; rewrite Z.mod_small; lia).
      do 16 (destruct i as [|i]; [injection E as <-; apply K; lia|]). lia.
  - rewrite nth_error_app2 in E by lia. rewrite Ln in E. destruct (IH (s + 1) ltac:(lia) I2 L _ _ E) as (E1 & s' & d' & E2 & E3). replace i with (i - 16 + 1 * 16)%nat by lia. rewrite Nat.div_add by lia. split; [|exists s', d'; split; [|auto]].
    + rewrite E1. rewrite Nat2Z.inj_add. change (Z.of_nat (1 * 16)) with (1 * 16). now rewrite Z.mod_add by lia.
    + rewrite Nat.add_comm. exact E2.
Qed.

Lemma round_down x : 0 <= x < 4294967296 -> Z.land x 4294901760 = 65536 * (x / 65536).
Proof. intros X. rewrite align64k by auto. apply Z.mul_comm. Qed.

Lemma formatted pl bs rest fb image lo hi : program bs -> extent bs lo hi -> 0 <= fb -> lo + fb <= 4294836224 ->
  format pl (bs ++ rest) fb image =
    if lo + fb <? base_of hi + 20480 then None
    else Some (bs ++ flat_map (fun p => write_sector (uns (base_of hi + uns (fst p * SECTOR))) (family bs) (snd p)) (image (lo + fb - base_of hi))).
Proof.
  intros [Pb (pre & b & -> & Fb & Nb & Rb & Np)] (XL & XH & X) Fb0 Lf. unfold format. rewrite <- app_assoc. cbn [app].
  apply Forall_app in Pb as Pb2. destruct Pb2 as [Pp _].
  destruct (locate b rest Fb (yes_last b Rb Nb) pre 4294967295 0 0 ltac:(lia) Pp Np) as [E1 E2]. rewrite E1, E2. change (0 =? 0) with true. cbn iota.
  destruct (lows_spec (pre ++ [b]) 4294967295 Pb) as (L1 & L2 & L3). destruct (highs_spec (pre ++ [b]) 0 Pb) as (H1 & H2 & H3).
  assert (Ib : In b (pre ++ [b])) by (apply in_app_iff; right; left; auto).
  assert (lows (pre ++ [b]) 4294967295 = lo) as ->.
  { destruct XL as (c & Ci & Cf & Ce). pose proof (L2 c Ci Cf). destruct L3 as [L3|(d & Di & Df & De)]; [pose proof (L2 b Ib Fb); destruct Fb as (_ & _ & ? & ? & ?); lia|]. destruct (X d Di Df). lia. }
  assert (highs (pre ++ [b]) 0 = hi) as ->.
  { destruct XH as (c & Ci & Cf & Ce). pose proof (H2 c Ci Cf). destruct H3 as [H3|(d & Di & Df & De)]; [pose proof (H2 b Ib Fb); destruct Fb as (_ & _ & ? & ? & ?); lia|]. destruct (X d Di Df). lia. }
  assert (R : 0 <= lo /\ lo < hi <= 4294836224).
  { destruct XL as (c & Ci & Cf & Ce). destruct (X c Ci Cf). destruct Cf as (_ & _ & ? & ? & ?). destruct XH as (d & Di & (_ & _ & ? & ? & ?) & De). lia. }
  assert (Eb : Z.land (uns (hi + 65536)) 4294901760 = base_of hi).
  { unfold uns. rewrite Z.mod_small by lia. rewrite round_down by lia. unfold base_of. f_equal. replace (hi + 65536) with (hi + 1 * 65536) by lia. now rewrite Z.div_add by lia. }
  rewrite Eb. assert (Rb2 : hi < base_of hi <= hi + 65536) by (unfold base_of; Z.to_euclidean_division_equations; lia).
  rewrite Z.mod_small by lia. unfold uns at 1. unfold SECTOR at 1. rewrite (Z.mod_small (base_of hi + 5 * 4096)) by lia. change (5 * 4096) with 20480.
  destruct (Z.ltb_spec (lo + fb) (base_of hi + 20480)); [auto|]. unfold uns at 1. cbn [negb]. rewrite andb_false_r. unfold uns at 1 2. rewrite (Z.mod_small (lo + fb - base_of hi)) by lia. auto.
Qed.

Theorem format_ok pl bs rest fb image lo hi : program bs -> extent bs lo hi -> 0 <= fb -> lo + fb <= 4294836224 -> base_of hi + 20480 <= lo + fb ->
  let n := lo + fb - base_of hi in image_ok (image n) 0 (n / 4096) ->
  exists fs, format pl (bs ++ rest) fb image = Some (bs ++ fs) /\ Forall (fs_block (family bs)) fs /\
    (forall i b, nth_error fs i = Some b -> bno b = Z.of_nat i mod 16 /\ exists s d, nth_error (image n) (Nat.div i 16) = Some (s, d) /\ addr b = base_of hi + 4096 * s + 256 * bno b) /\
    (forall s d k, In (s, d) (image n) -> 0 <= k < 4096 -> base_of hi + 4096 * s + k < lo + fb /\ flashed (bs ++ fs) (base_of hi + 4096 * s + k) = Some (d k)) /\
    (forall x, (forall s d, In (s, d) (image n) -> ~ base_of hi + 4096 * s <= x < base_of hi + 4096 * s + 4096) -> flashed (bs ++ fs) x = flashed bs x) /\
    (forall x, flashed bs x <> None -> lo <= x < hi) /\ hi < base_of hi <= hi + 65536.
Proof.
  intros P X F L G n I. rewrite (formatted pl bs rest fb image lo hi P X F L). replace (lo + fb <? base_of hi + 20480) with false by lia. fold n.
  assert (Rb2 : hi < base_of hi <= hi + 65536) by (unfold base_of; Z.to_euclidean_division_equations; lia).
  assert (H0 : 0 <= hi) by (destruct X as (_ & (c & _ & (_ & _ & ? & ? & _) & <-) & _); lia).
  pose proof (image_le _ _ _ I) as IL.
  assert (E : flat_map (fun p => write_sector (uns (base_of hi + uns (fst p * SECTOR))) (family bs) (snd p)) (image n) = put_image (base_of hi) (family bs) (image n)).
  { unfold put_image. revert IL. generalize (image n). clear I. induction 1 as [|p l Hp Hl IH]; cbn [flat_map]; [auto|]. rewrite IH. f_equal. f_equal. unfold uns, SECTOR. assert (4096 * (n / 4096) <= n) by (Z.to_euclidean_division_equations; lia). unfold n in *. rewrite (Z.mod_small (fst p * 4096)) by lia. rewrite Z.mod_small by lia. lia. }
  rewrite E. exists (put_image (base_of hi) (family bs) (image n)). split; [auto|]. assert (4096 * (n / 4096) <= n) by (Z.to_euclidean_division_equations; lia).
  split; [apply (image_blocks (base_of hi) (family bs) (n / 4096) ltac:(lia) (image n) 0); auto; unfold n in *; lia|]. split; [apply (image_order (base_of hi) (family bs) (n / 4096) ltac:(lia) (image n) 0); auto; unfold n in *; lia|]. rewrite flashed_app.
  destruct (image_loads (base_of hi) (family bs) (n / 4096) ltac:(lia) (image n) 0 ltac:(lia) I ltac:(unfold n in *; lia) (flashed bs)) as [H1 H2]. split; [|split; [|split; [|lia]]].
  - intros s d k Is K. split; [|auto]. rewrite Forall_forall in IL. specialize (IL _ Is). cbn [fst] in IL. unfold n in *. lia.
  - auto.
  - intros x. apply flashed_in; [apply P|auto].
Qed.
Theorem format_small pl bs rest fb image lo hi : program bs -> extent bs lo hi -> 0 <= fb -> lo + fb <= 4294836224 -> lo + fb < base_of hi + 20480 -> format pl (bs ++ rest) fb image = None.
Proof. intros P X F L G. rewrite (formatted pl bs rest fb image lo hi P X F L). now replace (lo + fb <? base_of hi + 20480) with true by lia. Qed.
Theorem format_again pl pl' bs r1 r2 fb image lo hi : program bs -> extent bs lo hi -> 0 <= fb -> lo + fb <= 4294836224 -> format pl (bs ++ r1) fb image = format pl' (bs ++ r2) fb image.
Proof. intros P X F L. now rewrite !(formatted _ bs _ fb image lo hi P X F L). Qed.
