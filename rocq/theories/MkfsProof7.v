(* The volume after formatting and mounting. *)
From Verif Require Import Base FatModel FatSpec MkfsModel MountModel MkfsSpec MkfsProof MkfsProof2 MkfsProof3 MkfsProof4 MkfsProof5 MkfsProof6.
Open Scope Z_scope.

Lemma geo_of_ok D b_vol sz_vol l : sizes (d_ss D) -> 0 <= b_vol -> b_vol + sz_vol <= d_size D -> d_size D < 4294967295 ->
  sound D b_vol sz_vol l -> 1 <= l_ncl l -> geo_ok (geo_of D b_vol l).
Proof.
  intros Ss Bv Sz Sm [[P1 P2 P3 P4 P5] F N T R _] Nc.
  assert (Rs : 1 <= l_rsv l) by (clear - P2; destruct (l_type l); lia).
  assert (Fa : 1 <= l_fat l) by (clear - P5; destruct (l_type l); lia).
  assert (Dr : 0 <= l_dir l) by (clear - P4 Ss; destruct (l_type l); [| |lia]; destruct Ss as [E|[E|[E|E]]]; rewrite E in P4; lia).
  assert (S : 512 <= d_ss D <= 4096) by (clear - Ss; destruct Ss as [E|[E|[E|E]]]; lia).
  constructor; cbn [geo_of ss fatbase fsize n_fats n_fatent ftype dsize].
  - exact Ss.
  - lia.
  - lia.
  - now left.
  - lia.
  - exact Sm.
  - lia.
  - clear - T. unfold most, least, MAX_FAT12, MAX_FAT16, MAX_FAT32 in T. destruct (l_type l); lia.
  - clear - R. unfold need in R. destruct (l_type l); lia.
Qed.

(* The bytes of the FAT. *)
Section fat.
Variable D : drive.
Variable b_vol sz_vol vsn : Z.
Variable l : layout.
Variable d0 d : store.
Variable v : vol.
Hypothesis S : 512 <= d_ss D <= 4096.
Hypothesis W : written D b_vol sz_vol vsn l d0 d.
Hypothesis V : forall s o, view v s o = d s o.
Let g := geo_of D b_vol l.

Definition head_len (t : fat) : Z := match t with FAT32 => 12 | _ => 4 end.

Lemma fat_byte_ok i : 0 <= i < l_fat l * d_ss D -> fat_byte g v i = if i <? head_len (l_type l) then fat_head (l_type l) nil_buf i else 0.
Proof.
  intro I. unfold fat_byte. cbn [g geo_of fatbase ss]. rewrite V.
  pose proof (Z.mod_pos_bound i (d_ss D)) as M. pose proof (Z.div_mod i (d_ss D)) as E.
  assert (Q : 0 <= i / d_ss D < l_fat l).
  { split; [apply Z.div_pos; lia|]. apply Z.div_lt_upper_bound; lia. }
  destruct W as [_ _ W1 W2 _]. destruct (Z.eq_dec (i / d_ss D) 0) as [Z|Z].
  - rewrite Z in *. rewrite Z.add_0_r. assert (X : i mod d_ss D = i) by lia. rewrite X in *.
    rewrite W1 by lia. destruct (Z.ltb_spec i (head_len (l_type l))) as [L|L]; [reflexivity|].
    unfold fat_head, head_len in *. destruct (l_type l); repeat (rewrite poke_out by (unfold le4; cbn [length]; lia)); reflexivity.
  - rewrite W2 by lia. destruct (Z.ltb_spec i (head_len (l_type l))) as [L|L]; [|reflexivity].
    exfalso. unfold head_len in L. destruct (l_type l); nia.
Qed.

Hypothesis Nc : 1 <= l_ncl l.
Hypothesis R : need (l_type l) (l_ncl l) <= l_fat l * d_ss D.

Lemma entry_ok c : 0 <= c < l_ncl l + 2 ->
  entry g v c = match c with
                | 0 => modulus (l_type l) - 8
                | 1 => modulus (l_type l) - 1
                | _ => match l_type l with FAT32 => if c =? 2 then 268435455 else 0 | _ => 0 end
                end.
Proof.
  intro C. unfold entry, entry_of. cbn [g geo_of ftype].
  assert (B : forall i, 0 <= i < need (l_type l) (l_ncl l) -> fat_byte g v i = if i <? head_len (l_type l) then fat_head (l_type l) nil_buf i else 0).
  { intros i I. apply fat_byte_ok. lia. }
  clear R. unfold need in B. destruct (Z.leb_spec c 2) as [C2|C2].
  { assert (X : c = 0 \/ c = 1 \/ c = 2) by lia. destruct X as [X|[X|X]]; subst c; destruct (l_type l) eqn:T; cbn [Z.even]; rewrite !B by lia; reflexivity. }
  assert (X : (match c with 0 => modulus (l_type l) - 8 | 1 => modulus (l_type l) - 1
      | _ => match l_type l with FAT32 => if c =? 2 then 268435455 else 0 | _ => 0 end end) = 0).
  { destruct (Z.eqb_spec c 2); [lia|]. destruct c as [|p|p]; [lia| |lia]. destruct p; [| |lia]; destruct (l_type l); reflexivity. }
  rewrite X. clear X. destruct (l_type l) eqn:T.
  - rewrite !B by lia. destruct (Z.ltb_spec (3 * c / 2) (head_len FAT12)) as [L|L]; [cbn [head_len] in L; lia|].
    destruct (Z.ltb_spec (3 * c / 2 + 1) (head_len FAT12)) as [L'|L']; [cbn [head_len] in L'; lia|]. destruct (Z.even c); reflexivity.
  - rewrite !B by lia. destruct (Z.ltb_spec (2 * c) (head_len FAT16)) as [L|L]; [cbn [head_len] in L; lia|].
    destruct (Z.ltb_spec (2 * c + 1) (head_len FAT16)) as [L'|L']; [cbn [head_len] in L'; lia|]. reflexivity.
  - rewrite !B by lia. destruct (Z.ltb_spec (4 * c) (head_len FAT32)) as [L|L]; [cbn [head_len] in L; lia|].
    destruct (Z.ltb_spec (4 * c + 1) (head_len FAT32)) as [L1|L1]; [cbn [head_len] in L1; lia|].
    destruct (Z.ltb_spec (4 * c + 2) (head_len FAT32)) as [L2|L2]; [cbn [head_len] in L2; lia|].
    destruct (Z.ltb_spec (4 * c + 3) (head_len FAT32)) as [L3|L3]; [cbn [head_len] in L3; lia|]. reflexivity.
Qed.
End fat.

Lemma count_all g E : 2 <= n_fatent g -> (forall c, 2 <= c < n_fatent g -> E c = 0) -> count_free g E = n_fatent g - 2.
Proof.
  intros N H. unfold count_free. assert (X : filter (free_in E) (clusters g) = clusters g).
  { assert (Y : Forall (fun c => free_in E c = true) (clusters g)).
    { apply Forall_forall. intros c C. unfold clusters in C. apply in_map_iff in C as (i & I & J). apply in_seq in J.
      unfold free_in. rewrite H by lia. reflexivity. }
    induction Y as [|c k C Y IH]; cbn [filter]; [reflexivity|]. now rewrite C, IH. }
  rewrite X. unfold clusters. rewrite map_length, seq_length. lia.
Qed.

Lemma count_but g E : 3 <= n_fatent g -> E 2 <> 0 -> (forall c, 3 <= c < n_fatent g -> E c = 0) -> count_free g E = n_fatent g - 3.
Proof.
  intros N N2 H. unfold count_free, clusters. replace (Z.to_nat (n_fatent g - 2)) with (S (Z.to_nat (n_fatent g - 3))) by lia.
  cbn [seq map filter]. unfold free_in at 1. destruct (Z.eqb_spec (E (2 + Z.of_nat 0)) 0) as [X|_]; [now elim N2|].
  set (k := map _ _). assert (X : filter (free_in E) k = k).
  { assert (Y : Forall (fun c => free_in E c = true) k).
    { apply Forall_forall. intros c C. unfold k in C. apply in_map_iff in C as (i & I & J). apply in_seq in J.
      unfold free_in. rewrite H by lia. reflexivity. }
    induction Y as [|c k' C Y IH]; cbn [filter]; [reflexivity|]. now rewrite C, IH. }
  rewrite X. unfold k. rewrite map_length, seq_length. lia.
Qed.
