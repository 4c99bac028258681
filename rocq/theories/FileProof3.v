(* The sector buffer of a file. *)
From Coq Require Import ZifyClasses ZifyInst ZifyBool.
From Verif Require Import Base FatModel FatSpec FileModel FileSpec FatProof FatProof2 FatProof3 FatProof4 FatProof5 FatProof6 FileProof FileProof2.
Open Scope Z_scope.
Ltac Zify.zify_post_hook ::= Z.div_mod_to_equations.

Lemma sector_inj g l p p' : geo_ok g -> data_ok g -> NoDup l -> 0 <= p < Z.of_nat (length l) * bcs g -> 0 <= p' < Z.of_nat (length l) * bcs g ->
  sector_of g l p = sector_of g l p' -> p / ss g = p' / ss g.
Proof. intros G A N H H' E. rewrite !sector_secn in E by auto. apply (secn_inj g l); auto; now apply q_room. Qed.

Lemma secn_near g l q j : data_ok g -> 0 <= q -> 0 <= j -> q mod csize g + j < csize g -> secn g l (q + j) = secn g l q + j.
Proof.
  intros A Q J H. pose proof (cs_pos g A). unfold secn.
  assert (D : (q + j) / csize g = q / csize g).
  { symmetry. apply (Z.div_unique (q + j) (csize g) (q / csize g) (q mod csize g + j)); [left|]; pose proof (Z.div_mod q (csize g)); pose proof (Z.mod_pos_bound q (csize g)); lia. }
  assert (M : (q + j) mod csize g = q mod csize g + j).
  { symmetry. apply (Z.mod_unique (q + j) (csize g) (q / csize g) (q mod csize g + j)); [left|]; pose proof (Z.div_mod q (csize g)); pose proof (Z.mod_pos_bound q (csize g)); lia. }
  rewrite D, M. lia.
Qed.

Lemma ss_max g : geo_ok g -> ss g <= MAXSS.
Proof. intros G. unfold MAXSS. destruct (ok_ss g G) as [H|[H|[H|H]]]; rewrite H; lia. Qed.
Lemma set_buf_id f : fdirty f = false -> set_buf f (fsect f) (fbuf f) false = f.
Proof. destruct f; cbn; now intros ->. Qed.

(* The sector of a byte of the file lies on the disk. *)
Lemma sector_range g D cs i v p : geo_ok g -> data_ok g -> ready g D cs i v -> let l := nth i cs [] in 0 <= p < Z.of_nat (length l) * bcs g ->
  0 < sector_of g l p < dsize g.
Proof.
  intros G A R l H. destruct (sector_in g l p G A H) as (c & C & S1).
  destruct (own_chain g v cs i (rd_own _ _ _ _ _ R) (rd_idx _ _ _ _ _ R)) as (Ch & _ & _). destruct (chain_in _ _ _ _ Ch C) as [C1 _].
  destruct (clst_sect g c G A C1) as (_ & D1 & D2). unfold in_cluster in S1. lia.
Qed.

(* Writing the buffer back. *)
Lemma back_ok g D cs i v f d : geo_ok g -> data_ok g -> ready g D cs i v -> let l := nth i cs [] in cached g v l f d -> 
  exists v', write_back g v f = Some (v', set_buf f (fsect f) (fbuf f) false) /\ grown g D i v cs v' cs /\ cached g v' l (set_buf f (fsect f) (fbuf f) false) d /\
    (forall c, 0 <= c < n_fatent g -> entry g v' c = entry g v c).
Proof.
  intros G A R l C. pose proof (rd_idx _ _ _ _ _ R) as I. unfold write_back. destruct (fdirty f) eqn:Fd.
  2: { exists v. rewrite set_buf_id by auto. split; [auto|]. split; [now apply grown_refl|]. auto. }
  destruct C as [H1 H0 H2 H3 H4 H5]. destruct (H2 Fd) as (c & C1 & C2). unfold in_cluster in C2. pose proof (ss_pos g G).
  destruct (write_ready g D cs i v (fbuf f) (fsect f) 1 c G A R C1) as (v' & E & R' & K & EE & W & Dk); try lia; [intros; apply H1|].
  rewrite E. exists v'. split; [auto|]. split; [now apply grown_quiet|]. split; [|auto]. constructor; cbn; auto.
  intros p b X _. rewrite Dk by (apply Z.mod_pos_bound; lia).
  destruct ((fsect f <=? sector_of g l p) && (sector_of g l p <? fsect f + 1)) eqn:Y.
  - assert (Q : fsect f = sector_of g l p) by lia. rewrite <- Q. replace ((fsect f - fsect f) * ss g + p mod ss g) with (p mod ss g) by lia. now apply H5.
  - apply H4; auto. right. lia.
Qed.

(* Loading the sector of byte p. *)
Lemma load_ok g D cs i v f d p : geo_ok g -> data_ok g -> ready g D cs i v -> let l := nth i cs [] in cached g v l f d -> fdirty f = false ->
  0 <= p < Z.of_nat (length l) * bcs g ->
  exists dd b, read_n g v (sector_of g l p) 1 = Some dd /\ memcpy (fbuf f) MAXSS 0 dd (ss g) 0 (ss g) = Ok b /\
    cached g v l (set_buf f (sector_of g l p) b (fdirty f)) d.
Proof.
  intros G A R l C Fd P. pose proof (sector_range g D cs i v p G A R P) as S1. fold l in S1. pose proof (ss_pos g G) as Sp. pose proof (ss_max g G) as Sm. pose proof (ok_dsize g G) as Sd.
  unfold read_n. replace ((0 <=? sector_of g l p) && (sector_of g l p + 1 <=? dsize g)) with true by lia.
  eexists. eexists. split; [reflexivity|]. unfold memcpy.
  replace ((0 <=? 0) && (0 + ss g <=? MAXSS) && (0 <=? 0) && (0 + ss g <=? ss g)) with true by lia. split; [reflexivity|].
  set (s := sector_of g l p) in *. destruct C as [H1 H0 H2 H3 H4 H5]. pose proof (ok_dbyte _ _ (ow_vol _ _ _ (rd_own _ _ _ _ _ R))) as Db.
  constructor; cbn.
  - intros o. destruct ((0 <=? o) && (o <? 0 + ss g)); auto.
  - lia.
  - rewrite Fd. discriminate.
  - auto.
  - intros q b X _. apply H4; auto.
  - intros q b X Y. pose proof (Z.mod_pos_bound q (ss g)). replace ((0 <=? q mod ss g) && (q mod ss g <? 0 + ss g)) with true by lia.
    replace (0 + (q mod ss g - 0)) with (q mod ss g) by lia. rewrite Z.mod_mod by lia.
    rewrite (Z.div_small (q mod ss g)) by lia. rewrite Z.add_0_r, Y. apply H4; auto.
Qed.

(* Not loading a sector beyond the end. *)
Lemma empty_ok g D cs i v f d p : geo_ok g -> data_ok g -> ready g D cs i v -> let l := nth i cs [] in cached g v l f d -> fdirty f = false ->
  0 <= p < Z.of_nat (length l) * bcs g -> p mod ss g = 0 -> len d <= p \/ fsect f = sector_of g l p ->
  cached g v l (set_buf f (sector_of g l p) (fbuf f) (fdirty f)) d.
Proof.
  intros G A R l C Fd P Pm L. pose proof (sector_range g D cs i v p G A R P) as S1. fold l in S1. pose proof (ok_dsize g G) as Sd.
  destruct L as [L|L].
  2: { rewrite <- L, Fd, set_buf_id; auto. }
  destruct (own_chain g v cs i (rd_own _ _ _ _ _ R) (rd_idx _ _ _ _ _ R)) as (_ & N & _). fold l in N.
  destruct C as [H1 H0 H2 H3 H4 H5]. constructor; cbn; auto.
  - lia.
  - rewrite Fd. discriminate.
  - intros q b X Y. exfalso. pose proof (H3 q b X) as Hq. symmetry in Y. pose proof (sector_inj g l q p G A N ltac:(lia) P Y) as Z.
    pose proof (ss_pos g G) as Sp. clear - Hq Z L Pm Sp. rewrite (Z.div_mod q (ss g)), Z in Hq by lia. pose proof (Z.div_mod p (ss g)). pose proof (Z.mod_pos_bound q (ss g)). lia.
Qed.

(* Changing bytes of the buffer. *)
Lemma poke_ok g D cs i v f d n w : geo_ok g -> data_ok g -> ready g D cs i v -> let l := nth i cs [] in cached g v l f d ->
  0 <= pos d < Z.of_nat (length l) * bcs g -> len d <= Z.of_nat (length l) * bcs g -> fsect f = sector_of g l (pos d) ->
  0 < n <= ss g - pos d mod ss g -> (forall k, vbyte (w k)) ->
  cached g v l (set_buf f (fsect f) (fun k => if (pos d mod ss g <=? k) && (k <? pos d mod ss g + n) then w (k - pos d mod ss g) else fbuf f k) true) (written d n w).
Proof.
  intros G A R l C P L S1 Hn Hw. destruct (own_chain g v cs i (rd_own _ _ _ _ _ R) (rd_idx _ _ _ _ _ R)) as (_ & N & _). fold l in N.
  pose proof (ss_pos g G) as Sp. destruct C as [H1 H0 H2 H3 H4 H5].
  assert (Same : forall p, pos d <= p < pos d + n -> p / ss g = pos d / ss g /\ p mod ss g = pos d mod ss g + (p - pos d)).
  { intros p Hp. pose proof (Z.div_mod (pos d) (ss g)). pose proof (Z.mod_pos_bound (pos d) (ss g)).
    split; symmetry; [apply (Z.div_unique p (ss g) _ (pos d mod ss g + (p - pos d)))|apply (Z.mod_unique p (ss g) (pos d / ss g))]; lia. }
  constructor; cbn [set_buf fbuf fsect fdirty data len written].
  - intros o. destruct ((pos d mod ss g <=? o) && (o <? pos d mod ss g + n)); auto.
  - auto.
  - intros _. rewrite S1. now apply sector_in.
  - intros p b. unfold overwritten. destruct ((pos d <=? p) && (p <? pos d + n)) eqn:X; intros Y; [lia|]. apply H3 in Y. lia.
  - intros p b. unfold overwritten. destruct ((pos d <=? p) && (p <? pos d + n)) eqn:X; intros Y [Z|Z]; try discriminate.
    + destruct (Same p ltac:(lia)) as [Q _]. exfalso. apply Z. rewrite S1, !sector_secn, Q by auto. auto.
    + apply H4; auto.
  - intros p b. unfold overwritten. destruct ((pos d <=? p) && (p <? pos d + n)) eqn:X; intros Y Z.
    + destruct (Same p ltac:(lia)) as [_ ->].
      replace ((pos d mod ss g <=? pos d mod ss g + (p - pos d)) && (pos d mod ss g + (p - pos d) <? pos d mod ss g + n)) with true by lia.
      injection Y as <-. f_equal. lia.
    + pose proof (H3 p b Y) as Hp. assert (Q : p / ss g = pos d / ss g) by (apply (sector_inj g l); auto; try lia; congruence).
      replace ((pos d mod ss g <=? p mod ss g) && (p mod ss g <? pos d mod ss g + n)) with false.
      * apply H5; auto.
      * pose proof (Z.div_mod p (ss g)). pose proof (Z.div_mod (pos d) (ss g)). rewrite Q in *. clear - X H H6 Sp. lia.
Qed.

(* Sectors of a cluster, written or read at once. *)
Section Direct.
Variables (g : geo) (l : list Z) (p cc : Z).
Hypotheses (G : geo_ok g) (A : data_ok g) (N : NoDup l) (P : 0 <= p < Z.of_nat (length l) * bcs g) (Pm : p mod ss g = 0)
  (C1 : 0 < cc) (C2 : (p / ss g) mod csize g + cc <= csize g).

Lemma direct_in j : 0 <= j < ss g * cc -> sector_of g l (p + j) = sector_of g l p + j / ss g /\ (p + j) mod ss g = j mod ss g.
Proof.
  intros J. pose proof (ss_pos g G) as Sp. rewrite !sector_secn by auto. pose proof (Z.div_mod p (ss g)).
  assert (E : (p + j) / ss g = p / ss g + j / ss g).
  { replace (p + j) with (j + p / ss g * ss g) by lia. rewrite Z.div_add by lia. lia. }
  split.
  - rewrite E. apply secn_near; auto; [apply Z.div_pos; lia|apply Z.div_pos; lia|].
    assert (j / ss g < cc) by (apply Z.div_lt_upper_bound; lia). lia.
  - replace (p + j) with (j + p / ss g * ss g) by lia. now rewrite Z.mod_add by lia.
Qed.
Lemma direct_out q : 0 <= q < Z.of_nat (length l) * bcs g -> sector_of g l p <= sector_of g l q < sector_of g l p + cc -> p <= q < p + ss g * cc.
Proof.
  intros Q H. pose proof (ss_pos g G) as Sp. set (j := sector_of g l q - sector_of g l p) in *.
  destruct (direct_in (j * ss g)) as [E _]; [unfold j; nia|]. rewrite Z.div_mul in E by lia.
  assert (E2 : sector_of g l q = sector_of g l (p + j * ss g)) by (unfold j in *; lia).
  pose proof (q_room g (length l) p G P) as Qp.
  assert (B : 0 <= p + j * ss g < Z.of_nat (length l) * bcs g).
  { assert (B : 0 <= (p / ss g + j) / csize g < Z.of_nat (length l)).
    { pose proof (cs_pos g A). assert (0 <= j < cc) by (unfold j; lia). replace ((p / ss g + j) / csize g) with (p / ss g / csize g).
      - split; [apply Z.div_pos; lia|]. apply Z.div_lt_upper_bound; lia.
      - apply (Z.div_unique _ _ _ ((p / ss g) mod csize g + j)); [left|]; pose proof (Z.div_mod (p / ss g) (csize g)); pose proof (Z.mod_pos_bound (p / ss g) (csize g)); lia. }
    assert (B2 : 0 <= p + j * ss g) by (unfold j; nia). split; [auto|].
    replace (p / ss g + j) with ((p + j * ss g) / ss g) in B by (rewrite Z.div_add; lia).
    rewrite <- div_bcs in B by auto. pose proof (bcs_pos g G A). pose proof (Z.div_mod (p + j * ss g) (bcs g)). pose proof (Z.mod_pos_bound (p + j * ss g) (bcs g)). nia. }
  pose proof (sector_inj g l q _ G A N Q B E2) as K. rewrite Z.div_add in K by lia.
  assert (0 <= j < cc) by (unfold j; lia). pose proof (Z.div_mod p (ss g)). pose proof (Z.div_mod q (ss g)). pose proof (Z.mod_pos_bound q (ss g)).
  rewrite K in *. clear - H0 H1 H2 H3 Pm Sp. nia.
Qed.
End Direct.
