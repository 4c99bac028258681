From Verif Require Import Base Arr ArrLemmas LoadModel LoadSpec CrcSpec.
Open Scope Z_scope.

Lemma bind_ok {A B} (x : res A) (k : A -> res B) b : bind x k = Ok b <-> exists a, x = Ok a /\ k a = Ok b.
Proof.
  destruct x as [a | | ]; cbn; split.
  - intros H. now exists a.
  - intros (a' & H & K). injection H as <-. exact K.
  - discriminate.
  - intros (a & H & _). discriminate.
  - discriminate.
  - intros (a & H & _). discriminate.
Qed.

Lemma byte_at_ok f o v : byte_at f o = Ok v <-> exists pre post, f = pre ++ v :: post /\ Z.of_nat (length pre) = o.
Proof.
  unfold byte_at, rd. split.
  - destruct ((0 <=? o) && (o <? Z.of_nat (length f))) eqn:E; [|discriminate].
    destruct (nth_error f (Z.to_nat o)) eqn:N; [|discriminate]. intros H. injection H as ->.
    apply nth_error_split in N as (l1 & l2 & -> & L). exists l1, l2. split; [reflexivity | lia].
  - intros (pre & post & -> & L). rewrite app_length. cbn [length].
    replace ((0 <=? o) && (o <? Z.of_nat (length pre + S (length post)))) with true by lia.
    rewrite nth_error_app2 by lia. replace (Z.to_nat o - length pre)%nat with 0%nat by lia. reflexivity.
Qed.

Lemma field_ok f n : forall o v, 0 <= o <= Z.of_nat (length f) -> field f o n = Ok v <-> holds f o n v.
Proof.
  induction n as [|n IH]; intros o v R; cbn [field].
  - split.
    + intros H. injection H as <-. exists (firstn (Z.to_nat o) f), [], (skipn (Z.to_nat o) f). cbn [app].
      rewrite firstn_skipn, firstn_length. repeat split; lia.
    + intros (pre & bs & post & -> & L & N & V). destruct bs; [|discriminate]. now rewrite <- V.
  - rewrite bind_ok. split.
    + intros (b & Hb & H). apply bind_ok in H as (r & Hr & H). injection H as <-.
      apply byte_at_ok in Hb as (pre & post & -> & L).
      apply IH in Hr; [|rewrite app_length in *; cbn [length] in *; lia].
      destruct Hr as (pre' & bs & post' & E & L' & N & V).
      assert (E1 : pre' = pre ++ [b]).
      { assert (E0 : pre ++ b :: post = (pre ++ [b]) ++ post) by (rewrite <- app_assoc; reflexivity). rewrite E0 in E.
        apply (f_equal (firstn (S (length pre)))) in E.
        rewrite firstn_app, firstn_all2 in E by (rewrite app_length; cbn [length]; lia).
        replace (S (length pre) - length (pre ++ [b]))%nat with 0%nat in E by (rewrite app_length; cbn [length]; lia).
        rewrite firstn_O, app_nil_r, firstn_app, firstn_all2 in E by lia.
        replace (S (length pre) - length pre')%nat with 0%nat in E by lia. rewrite firstn_O, app_nil_r in E. congruence. }
      subst pre'. rewrite <- app_assoc in E. apply app_inv_head in E. cbn [app] in E.
      exists pre, (b :: bs), post'. cbn [app length of_le]. repeat split; try congruence; lia.
    + intros (pre & bs & post & -> & L & N & V). destruct bs as [|b bs]; [discriminate|].
      exists b. cbn [of_le] in V. split.
      * apply byte_at_ok. exists pre, (bs ++ post). auto.
      * apply bind_ok. exists (of_le bs). split; [|now subst].
        apply IH; [rewrite !app_length in *; cbn [length] in *; lia|].
        exists (pre ++ [b]), bs, post. rewrite <- app_assoc. cbn [app]. rewrite app_length. cbn [length] in *. repeat split; lia.
Qed.

Lemma field_range f n o v : (0 < n)%nat -> field f o n = Ok v -> 0 <= o <= Z.of_nat (length f).
Proof.
  destruct n; [lia|]. intros _. cbn [field]. intros H. apply bind_ok in H as (b & H & _).
  apply byte_at_ok in H as (pre & post & -> & L). rewrite app_length. lia.
Qed.

Lemma holds_range f n o v : holds f o n v -> 0 <= o <= Z.of_nat (length f).
Proof. intros (pre & bs & post & -> & L & _). rewrite app_length. lia. Qed.

Lemma field_iff f n o v : (0 < n)%nat -> field f o n = Ok v <-> holds f o n v.
Proof.
  intros N. split; intros H.
  - apply field_ok; [eapply field_range; eauto | exact H].
  - apply field_ok; [eapply holds_range; eauto | exact H].
Qed.

Lemma byte_iff f o v : byte_at f o = Ok v <-> holds f o 1 v.
Proof.
  rewrite <- field_iff by lia. cbn [field]. rewrite bind_ok. split.
  - intros H. exists v. cbn. split; [exact H|]. f_equal. lia.
  - intros (b & H & K). cbn in K. injection K as <-. rewrite H. f_equal. lia.
Qed.

Lemma field_fun f o n u v : field f o n = Ok u -> field f o n = Ok v -> u = v.
Proof. congruence. Qed.

Lemma member_iff f base l k v : (0 < nth k l 0)%nat ->
  member f base l k v <-> field f (base + Z.of_nat (sum (firstn k l))) (nth k l 0%nat) = Ok v.
Proof. intros N. unfold member. symmetry. now apply field_iff. Qed.

Section Elf.
Variable b64 : bool.
Variable machine : Z.

Ltac mem := rewrite member_iff by (destruct b64; cbn; lia); destruct b64; reflexivity.

Lemma e_type_iff f v : e_type f = Ok v <-> member f 0 (ehdr b64) 1 v.
Proof. mem. Qed.
Lemma e_machine_iff f v : e_machine f = Ok v <-> member f 0 (ehdr b64) 2 v.
Proof. mem. Qed.
Lemma e_entry_iff f v : e_entry b64 f = Ok v <-> member f 0 (ehdr b64) 4 v.
Proof. mem. Qed.
Lemma e_shoff_iff f v : e_shoff b64 f = Ok v <-> member f 0 (ehdr b64) 6 v.
Proof. mem. Qed.
Lemma e_shnum_iff f v : e_shnum b64 f = Ok v <-> member f 0 (ehdr b64) 12 v.
Proof. mem. Qed.
Lemma sh_type_iff f s v : sh_type f s = Ok v <-> member f s (shdr b64) 1 v.
Proof. mem. Qed.
Lemma sh_flags_iff f s v : sh_flags b64 f s = Ok v <-> member f s (shdr b64) 2 v.
Proof. mem. Qed.
Lemma sh_offset_iff f s v : sh_offset b64 f s = Ok v <-> member f s (shdr b64) 4 v.
Proof. mem. Qed.
Lemma sh_size_iff f s v : sh_size b64 f s = Ok v <-> member f s (shdr b64) 5 v.
Proof. mem. Qed.
Lemma sh_link_iff f s v : sh_link b64 f s = Ok v <-> member f s (shdr b64) 6 v.
Proof. mem. Qed.
Lemma sh_entsize_iff f s v : sh_entsize b64 f s = Ok v <-> member f s (shdr b64) 9 v.
Proof. mem. Qed.

Lemma member_fun f base l k u v : (0 < nth k l 0)%nat -> member f base l k u -> member f base l k v -> u = v.
Proof. intros N. rewrite !member_iff by exact N. congruence. Qed.

Lemma shoff_fun f u v : member f 0 (ehdr b64) 6 u -> member f 0 (ehdr b64) 6 v -> u = v.
Proof. apply member_fun. destruct b64; cbn; lia. Qed.

Lemma sizeof_sum : sizeof_shdr b64 = Z.of_nat (sum (shdr b64)).
Proof. now destruct b64. Qed.

Lemma land64 fl : Z.land fl SHF_INFO_LINK = SHF_INFO_LINK <-> Z.testbit fl 6 = true.
Proof.
  unfold SHF_INFO_LINK. change 64 with (2 ^ 6). split.
  - intros H. apply (f_equal (fun x => Z.testbit x 6)) in H. rewrite Z.land_spec, Z.pow2_bits_true in H by lia.
    now rewrite andb_true_r in H.
  - intros H. apply Z.bits_inj'. intros n Hn. rewrite Z.land_spec, Z.pow2_bits_eqb by lia.
    destruct (6 =? n) eqn:E; [assert (n = 6) by lia; subst; now rewrite H | now rewrite andb_false_r].
Qed.

(* The section search. *)
Lemma find_section_some f shoff ty n : member f 0 (ehdr b64) 6 shoff ->
  forall i s, find_section b64 f (shoff + i * sizeof_shdr b64) n ty SHF_INFO_LINK = Ok (Some s) <->
  exists j, i <= j < i + Z.of_nat n /\ s = shoff + j * sizeof_shdr b64 /\ is_reloc b64 f ty j /\
    forall k, i <= k < j -> not_reloc b64 f ty k.
Proof.
  intros M. induction n as [|n IH]; intros i s; cbn [find_section].
  { split; [discriminate | intros (j & R & _); lia]. }
  assert (S : forall k v, section b64 f i k v <-> member f (shoff + i * sizeof_shdr b64) (shdr b64) k v).
  { intros k v. rewrite sizeof_sum. split; [|intros H; exists shoff; auto].
    intros (sh & M' & H). now rewrite (shoff_fun _ _ _ M M'). }
  assert (E : forall P : Prop, (forall j, i <= j < i + Z.of_nat (Datatypes.S n) -> j = i \/ i + 1 <= j < i + 1 + Z.of_nat n)) by (intros; lia).
  assert (NR : not_reloc b64 f ty i -> (exists j, i + 1 <= j < i + 1 + Z.of_nat n /\ s = shoff + j * sizeof_shdr b64 /\ is_reloc b64 f ty j /\ (forall k, i + 1 <= k < j -> not_reloc b64 f ty k)) <->
    exists j, i <= j < i + Z.of_nat (Datatypes.S n) /\ s = shoff + j * sizeof_shdr b64 /\ is_reloc b64 f ty j /\ (forall k, i <= k < j -> not_reloc b64 f ty k)).
  { intros NRi. split.
    - intros (j & R & Es & I & F). exists j. repeat split; auto; try lia; try apply I. intros k Rk.
      destruct (Z.eq_dec k i) as [->|]; [exact NRi | apply F; lia].
    - intros (j & R & Es & I & F). exists j. destruct (Z.eq_dec j i) as [->|].
      + exfalso. destruct I as (T & fl & Fl & B). destruct NRi as (t & T' & D).
        apply S in T. apply S in T'. apply sh_type_iff in T. apply sh_type_iff in T'.
        destruct D as [D | (fl' & Fl' & B')]; [congruence|].
        apply S in Fl. apply S in Fl'. apply sh_flags_iff in Fl. apply sh_flags_iff in Fl'. congruence.
      + repeat split; auto; try lia; try apply I. intros k Rk. apply F. lia. }
  replace (shoff + i * sizeof_shdr b64 + sizeof_shdr b64) with (shoff + (i + 1) * sizeof_shdr b64) by lia.
  rewrite bind_ok. split.
  - intros (t & T & H). pose proof T as T0. apply sh_type_iff, S in T. destruct (t =? ty) eqn:Et.
    + assert (t = ty) by lia. subst t. apply bind_ok in H as (fl & Fl & H). pose proof Fl as Fl0. apply sh_flags_iff, S in Fl.
      destruct (Z.land fl SHF_INFO_LINK =? SHF_INFO_LINK) eqn:B.
      * injection H as <-. exists i. repeat split; try lia; auto. exists fl. split; [exact Fl|]. apply land64. lia.
      * apply IH, NR in H; [exact H|]. exists ty. split; [exact T|]. right. exists fl. split; [exact Fl|].
        destruct (Z.testbit fl 6) eqn:Tb; [|reflexivity]. apply land64 in Tb. lia.
    + apply IH, NR in H; [exact H|]. exists t. split; [exact T|]. left. lia.
  - intros (j & R & Es & I & F). destruct (Z.eq_dec j i) as [->|].
    + destruct I as (T & fl & Fl & B). apply S, sh_type_iff in T. apply S, sh_flags_iff in Fl.
      exists ty. split; [exact T|]. rewrite Z.eqb_refl. apply bind_ok. exists fl. split; [exact Fl|].
      apply land64 in B. rewrite B, Z.eqb_refl. now rewrite Es.
    + assert (NRi : not_reloc b64 f ty i) by (apply F; lia). pose proof (proj2 (NR NRi) (ex_intro _ j (conj R (conj Es (conj I F))))) as H.
      apply IH in H. destruct NRi as (t & T & D). apply S, sh_type_iff in T. exists t. split; [exact T|].
      destruct (t =? ty) eqn:Et; [|exact H]. destruct D as [D | (fl & Fl & B)]; [lia|]. apply S, sh_flags_iff in Fl.
      apply bind_ok. exists fl. split; [exact Fl|]. destruct (Z.land fl SHF_INFO_LINK =? SHF_INFO_LINK) eqn:L; [|exact H].
      assert (Hb : Z.land fl SHF_INFO_LINK = SHF_INFO_LINK) by lia. apply land64 in Hb. congruence.
Qed.

Lemma find_section_none f shoff ty n : member f 0 (ehdr b64) 6 shoff ->
  forall i, find_section b64 f (shoff + i * sizeof_shdr b64) n ty SHF_INFO_LINK = Ok None <->
  forall k, i <= k < i + Z.of_nat n -> not_reloc b64 f ty k.
Proof.
  intros M. induction n as [|n IH]; intros i; cbn [find_section].
  { split; [intros _ k R; lia | reflexivity]. }
  assert (S : forall k v, section b64 f i k v <-> member f (shoff + i * sizeof_shdr b64) (shdr b64) k v).
  { intros k v. rewrite sizeof_sum. split; [|intros H; exists shoff; auto].
    intros (sh & M' & H). now rewrite (shoff_fun _ _ _ M M'). }
  replace (shoff + i * sizeof_shdr b64 + sizeof_shdr b64) with (shoff + (i + 1) * sizeof_shdr b64) by lia.
  rewrite bind_ok. split.
  - intros (t & T & H) k R. pose proof T as T0. apply sh_type_iff, S in T. destruct (t =? ty) eqn:Et.
    + assert (t = ty) by lia. subst t. apply bind_ok in H as (fl & Fl & H). apply sh_flags_iff, S in Fl.
      destruct (Z.land fl SHF_INFO_LINK =? SHF_INFO_LINK) eqn:B; [discriminate|].
      destruct (Z.eq_dec k i) as [->|]; [|apply (proj1 (IH _) H); lia].
      exists ty. split; [exact T|]. right. exists fl. split; [exact Fl|].
      destruct (Z.testbit fl 6) eqn:Tb; [|reflexivity]. apply land64 in Tb. lia.
    + destruct (Z.eq_dec k i) as [->|]; [|apply (proj1 (IH _) H); lia].
      exists t. split; [exact T|]. left. lia.
  - intros F. assert (H : find_section b64 f (shoff + (i + 1) * sizeof_shdr b64) n ty SHF_INFO_LINK = Ok None).
    { apply IH. intros k R. apply F. lia. }
    destruct (F i ltac:(lia)) as (t & T & D). apply S, sh_type_iff in T. exists t. split; [exact T|].
    destruct (t =? ty) eqn:Et; [|exact H]. destruct D as [D | (fl & Fl & B)]; [lia|]. apply S, sh_flags_iff in Fl.
    apply bind_ok. exists fl. split; [exact Fl|]. destruct (Z.land fl SHF_INFO_LINK =? SHF_INFO_LINK) eqn:L; [|exact H].
    assert (Hb : Z.land fl SHF_INFO_LINK = SHF_INFO_LINK) by lia. apply land64 in Hb. congruence.
Qed.

Lemma by_type_some f ty s : section_by_type_flags b64 f ty SHF_INFO_LINK = Ok (Some s) <->
  exists shoff num i, member f 0 (ehdr b64) 6 shoff /\ member f 0 (ehdr b64) 12 num /\ 0 <= i < num /\
    s = shoff + i * sizeof_shdr b64 /\ is_reloc b64 f ty i /\ forall k, 0 <= k < i -> not_reloc b64 f ty k.
Proof.
  unfold section_by_type_flags. rewrite bind_ok. split.
  - intros (shoff & M & H). apply bind_ok in H as (num & N & H). apply e_shoff_iff in M.
    replace shoff with (shoff + 0 * sizeof_shdr b64) in H by lia. apply find_section_some in H as (j & R & Es & I & F); [|exact M].
    apply e_shnum_iff in N. exists shoff, num, j. repeat split; auto; try lia; apply I.
  - intros (shoff & num & i & M & N & R & Es & I & F). exists shoff. apply e_shoff_iff in M. split; [exact M|].
    apply bind_ok. exists num. apply e_shnum_iff in N. split; [exact N|]. apply e_shoff_iff in M.
    replace shoff with (shoff + 0 * sizeof_shdr b64) at 1 by lia. apply find_section_some; [exact M|].
    exists i. repeat split; auto; try lia; apply I.
Qed.

Lemma by_type_none f ty : section_by_type_flags b64 f ty SHF_INFO_LINK = Ok None <->
  exists shoff num, member f 0 (ehdr b64) 6 shoff /\ member f 0 (ehdr b64) 12 num /\
    forall k, 0 <= k < num -> not_reloc b64 f ty k.
Proof.
  unfold section_by_type_flags. rewrite bind_ok. split.
  - intros (shoff & M & H). apply bind_ok in H as (num & N & H). apply e_shoff_iff in M.
    replace shoff with (shoff + 0 * sizeof_shdr b64) in H by lia. 
    exists shoff, num. split; [exact M|]. split; [now apply e_shnum_iff|]. intros k R.
    apply (proj1 (find_section_none _ _ _ _ M 0) H). lia.
  - intros (shoff & num & M & N & F). exists shoff. split; [now apply e_shoff_iff|].
    apply bind_ok. exists num. split; [now apply e_shnum_iff|].
    replace shoff with (shoff + 0 * sizeof_shdr b64) at 1 by lia. apply find_section_none; [exact M|].
    intros k R. apply F. lia.
Qed.

Lemma is_not f ty i : is_reloc b64 f ty i -> ~ not_reloc b64 f ty i.
Proof.
  intros ((sh & M & T) & fl & (sh2 & M2 & Fl) & B) (t & (sh3 & M3 & T') & D).
  rewrite <- (shoff_fun _ _ _ M M2) in Fl. rewrite <- (shoff_fun _ _ _ M M3) in T'.
  apply sh_type_iff in T. apply sh_type_iff in T'. destruct D as [D | (fl' & (sh4 & M4 & Fl') & B')]; [congruence|].
  rewrite <- (shoff_fun _ _ _ M M4) in Fl'. apply sh_flags_iff in Fl. apply sh_flags_iff in Fl'. congruence.
Qed.

End Elf.
