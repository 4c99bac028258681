From Verif Require Import Base Arr ArrLemmas LoadModel LoadSpec CrcSpec LoadProof.
Open Scope Z_scope.

Section Elf.
Variable b64 : bool.
Variable machine : Z.

Lemma section_at f shoff i k v : member f 0 (ehdr b64) 6 shoff ->
  section b64 f i k v <-> member f (shoff + i * sizeof_shdr b64) (shdr b64) k v.
Proof.
  intros M. rewrite sizeof_sum. split; [|intros H; exists shoff; auto].
  intros (sh & M' & H). now rewrite (shoff_fun _ _ _ _ M M').
Qed.

Lemma reloc_section_iff f shoff : member f 0 (ehdr b64) 6 shoff -> forall s,
  (r <- section_by_type_flags b64 f SHT_RELA SHF_INFO_LINK ;;
   match r with Some s => Ok (Some s) | None => section_by_type_flags b64 f SHT_REL SHF_INFO_LINK end) = Ok (Some s) <->
  exists ty i, reloc_section b64 f ty i /\ s = shoff + i * sizeof_shdr b64.
Proof.
  intros M s. rewrite bind_ok. split.
  - intros (r & H1 & H2). destruct r as [s'|].
    + injection H2 as ->. apply by_type_some in H1 as (sh & num & i & M' & N & R & E & I & F).
      exists 4, i. rewrite (shoff_fun _ _ _ _ M M'). split; [|exact E]. exists num. split; [exact N|]. split; [exact R|].
      split; [exact I|]. split; [exact F|]. now left.
    + apply by_type_some in H2 as (sh & num & i & M' & N & R & E & I & F).
      apply by_type_none in H1 as (sh' & num' & _ & N' & F').
      exists 9, i. rewrite (shoff_fun _ _ _ _ M M'). split; [|exact E]. exists num. split; [exact N|]. split; [exact R|].
      split; [exact I|]. split; [exact F|]. right. split; [reflexivity|]. intros j Rj. apply F'.
      apply e_shnum_iff in N. apply e_shnum_iff in N'. replace num' with num by congruence. exact Rj.
  - intros (ty & i & (num & N & R & I & F & D) & ->). destruct D as [-> | (-> & D)].
    + exists (Some (shoff + i * sizeof_shdr b64)). split; [|reflexivity]. apply by_type_some. exists shoff, num, i. auto 10.
    + exists None. split; [apply by_type_none; exists shoff, num; auto|]. apply by_type_some. exists shoff, num, i. auto 10.
Qed.

Lemma guard {A} (b : bool) (x : A) (y : res A) z : (if negb b then Ok x else y) = Ok z -> x <> z -> b = true /\ y = Ok z.
Proof. destruct b; cbn; [auto|]. intros H N. congruence. Qed.

Lemma check_file_iff f s num : check_file b64 machine f = Ok (inr (s, num)) <->
  exists shoff ty r size ent, good_header b64 machine f /\ member f 0 (ehdr b64) 6 shoff /\ reloc_section b64 f ty r /\
    s = shoff + r * sizeof_shdr b64 /\ section b64 f r 5 size /\ section b64 f r 9 ent /\ ent <> 0 /\ num = (size / ent) mod 2 ^ 32.
Proof.
  unfold check_file. split.
  - intros H. apply bind_ok in H as (m0 & B0 & H). apply bind_ok in H as (m1 & B1 & H).
    apply bind_ok in H as (m2 & B2 & H). apply bind_ok in H as (m3 & B3 & H).
    apply guard in H as (E3 & H); [|discriminate].
    apply bind_ok in H as (v & V & H). apply guard in H as (Ev & H); [|discriminate].
    apply bind_ok in H as (d & D & H). apply guard in H as (Ed & H); [|discriminate].
    apply bind_ok in H as (c & C & H). apply guard in H as (Ec & H); [|discriminate].
    apply bind_ok in H as (t & T & H). apply guard in H as (Et & H); [|discriminate].
    apply bind_ok in H as (m & M & H). apply guard in H as (Em & H); [|discriminate].
    destruct (m2 =? 76) eqn:E2; [|injection B3 as <-; discriminate].
    destruct (m1 =? 69) eqn:E1; [|injection B2 as <-; discriminate].
    destruct (m0 =? 127) eqn:E0; [|injection B1 as <-; discriminate].
    apply Z.eqb_eq in E0, E1, E2, E3, Ev, Ed, Ec, Et, Em. subst.
    set (x := section_by_type_flags b64 f SHT_RELA SHF_INFO_LINK) in H.
    apply bind_ok in H as (r1 & H1 & H). apply bind_ok in H as (r & H2 & H).
    destruct r as [s'|]; [|discriminate]. apply bind_ok in H as (size & Sz & H). apply bind_ok in H as (ent & En & H).
    destruct (ent =? 0) eqn:E0; [discriminate|]. apply Z.eqb_neq in E0. injection H as <- <-.
    assert (SH : exists shoff, member f 0 (ehdr b64) 6 shoff).
    { subst x. unfold section_by_type_flags in H1. apply bind_ok in H1 as (sh & S & _). exists sh. now apply e_shoff_iff. }
    destruct SH as (shoff & SH).
    assert (K : exists ty i, reloc_section b64 f ty i /\ s' = shoff + i * sizeof_shdr b64).
    { apply (reloc_section_iff f shoff SH). apply bind_ok. exists r1. split; [exact H1|]. destruct r1; exact H2. }
    destruct K as (ty & i & K & ->). exists shoff, ty, i, size, ent.
    apply sh_size_iff in Sz. apply sh_entsize_iff in En.
    split.
    { unfold good_header. rewrite <- !byte_iff. apply e_type_iff with (b64 := b64) in T. apply e_machine_iff with (b64 := b64) in M. unfold pick in C. destruct b64; auto 12. }
    split; [exact SH|]. split; [exact K|]. split; [reflexivity|]. rewrite !(section_at f shoff) by exact SH. auto.
  - intros (shoff & ty & r & size & ent & G & SH & K & -> & Sz & En & N0 & ->).
    destruct G as (G0 & G1 & G2 & G3 & Gc & Gd & Gv & Gt & Gm).
    apply byte_iff in G0, G1, G2, G3, Gc, Gd, Gv. apply e_type_iff in Gt. apply e_machine_iff in Gm.
    rewrite (section_at f shoff) in Sz, En by exact SH. apply sh_size_iff in Sz. apply sh_entsize_iff in En.
    rewrite G0. cbn [bind]. change (127 =? 127) with true. cbn iota. rewrite G1. cbn [bind]. change (69 =? 69) with true. cbn iota.
    rewrite G2. cbn [bind]. change (76 =? 76) with true. cbn iota. rewrite G3. cbn [bind]. change (negb (70 =? 70)) with false. cbn iota.
    rewrite Gv. cbn [bind]. change (negb (1 =? 1)) with false. cbn iota. rewrite Gd. cbn [bind]. change (negb (1 =? 1)) with false. cbn iota.
    rewrite Gc. cbn [bind]. unfold pick at 1. rewrite Z.eqb_refl. cbn [negb]. cbn iota.
    rewrite Gt. cbn [bind]. change (negb (3 =? ET_DYN)) with false. cbn iota. rewrite Gm. cbn [bind]. rewrite Z.eqb_refl. cbn [negb]. cbn iota.
    assert (KK := proj2 (reloc_section_iff f shoff SH _) (ex_intro _ ty (ex_intro _ r (conj K eq_refl)))).
    apply bind_ok in KK as (r1 & K1 & K2). rewrite K1. cbn [bind]. rewrite K2. cbn [bind]. rewrite Sz. cbn [bind]. rewrite En. cbn [bind].
    replace (ent =? 0) with false by lia. reflexivity.
Qed.

Lemma of_le_range bs : Forall byte bs -> 0 <= of_le bs < 256 ^ Z.of_nat (length bs).
Proof.
  induction 1 as [|b bs B _ IH]; cbn [of_le length]; [cbn; lia|].
  rewrite Nat2Z.inj_succ, Z.pow_succ_r by lia. unfold byte in B. lia.
Qed.

Lemma holds_value f o n v : Forall byte f -> holds f o n v -> 0 <= v < 256 ^ Z.of_nat n.
Proof.
  intros F (pre & bs & post & -> & _ & <- & <-). apply of_le_range.
  apply Forall_app in F as (_ & F). now apply Forall_app in F.
Qed.

Lemma cstr_iff f s : cstr f = Ok s <-> ~ In 0 s /\ exists post, f = s ++ 0 :: post.
Proof.
  revert s. induction f as [|c f IH]; intros s; cbn [cstr].
  { split; [discriminate|]. intros (_ & post & E). destruct s; discriminate. }
  destruct (c =? 0) eqn:E.
  - split.
    + intros H. injection H as <-. split; [auto|]. exists f. cbn. f_equal. lia.
    + intros (N & post & P). destruct s as [|x s]; [reflexivity|]. cbn in P. injection P as -> _. exfalso. apply N. left. lia.
  - rewrite bind_ok. split.
    + intros (s' & H & K). injection K as <-. apply IH in H as (N & post & ->). split; [|now exists post].
      intros [->|I]; [lia|auto].
    + intros (N & post & P). destruct s as [|x s]; cbn in P; [injection P as -> _; lia|]. injection P as -> P.
      exists s. split; [|reflexivity]. apply IH. split; [intros I; apply N; now right|]. now exists post.
Qed.

Lemma string_from_iff f o s : string_from f o = Ok s <-> LoadSpec.string_at f o s.
Proof.
  unfold string_from, LoadSpec.string_at. split.
  - destruct (0 <=? o) eqn:E; [|discriminate]. intros H. pose proof H as H0. apply cstr_iff in H as (N & post & P). split; [exact N|].
    exists (firstn (Z.to_nat o) f), post. rewrite <- P, firstn_skipn. split; [reflexivity|].
    rewrite firstn_length. assert (L : (0 < length (skipn (Z.to_nat o) f))%nat) by (rewrite P, app_length; cbn; lia).
    rewrite skipn_length in L. lia.
  - intros (N & pre & post & -> & L). replace (0 <=? o) with true by lia. apply cstr_iff. split; [exact N|]. exists post.
    rewrite skipn_app. replace (Z.to_nat o) with (length pre) by lia. rewrite skipn_all, Nat.sub_diag. reflexivity.
Qed.

Lemma w_word : word b64 = w b64.
Proof. now destruct b64. Qed.

(* get_name and the rest of one turn of the binding loop. *)
Definition import_of (f : list Z) (s i : Z) : res import :=
  '(o, v) <- get_name b64 f s i ;;
  if negb (v =? 0) then Ok (Defined v) else n <- string_from f o ;; Ok (Named n).

Lemma import_of_iff f shoff ty r i m : Forall byte f -> member f 0 (ehdr b64) 6 shoff -> section b64 f r 1 ty -> ty = 4 \/ ty = 9 ->
  import_of f (shoff + r * sizeof_shdr b64) i = Ok m <-> import_at b64 f ty r i m.
Proof.
  intros FB SH T D. rewrite (section_at f shoff) in T by exact SH. apply sh_type_iff in T.
  assert (RI : forall roff info, field f (roff + i * (if ty =? SHT_RELA then pick b64 24 12 else pick b64 16 8) + pick b64 8 4) (word b64) = Ok info <->
    member f (roff + i * Z.of_nat (sum (if ty =? 4 then rela b64 else LoadSpec.rel b64))) (if ty =? 4 then rela b64 else LoadSpec.rel b64) 1 info).
  { intros roff info. destruct D as [-> | ->]; [change (4 =? SHT_RELA) with true; change (4 =? 4) with true | change (9 =? SHT_RELA) with false; change (9 =? 4) with false];
      cbn iota; destruct b64; symmetry; apply member_iff; cbn; lia. }
  assert (SR : forall o n v, (0 < n)%nat -> field f o n = Ok v -> 0 <= v < 256 ^ Z.of_nat n).
  { intros o n v N H. apply field_iff in H; [|exact N]. eapply holds_value; eauto. }
  assert (SM : forall roff info, field f roff (word b64) = Ok info -> Z.shiftr info (pick b64 32 8) mod 2 ^ 32 = info / (if b64 then 2 ^ 32 else 2 ^ 8)).
  { intros roff info H. apply SR in H; [|destruct b64; cbn; lia]. rewrite Z.shiftr_div_pow2 by (destruct b64; cbn; lia).
    destruct b64; cbn in *; apply Z.mod_small; lia. }
  assert (VA : forall s v, field f (s + pick b64 8 4) (word b64) = Ok v <-> member f s (sym b64) (sym_value b64) v).
  { intros s v. destruct b64; symmetry; apply member_iff; cbn; lia. }
  assert (NA : forall s v, field f s 4 = Ok v <-> member f s (sym b64) 0 v).
  { intros s v. rewrite member_iff by (destruct b64; cbn; lia). replace (nth 0 (sym b64) 0%nat) with 4%nat by now destruct b64.
    cbn [firstn sum fold_right]. now rewrite Z.add_0_r. }
  assert (SS : pick b64 24 16 = Z.of_nat (sum (sym b64))) by now destruct b64.
  unfold import_of, import_at. split.
  - intros H. apply bind_ok in H as ((o & v) & G & H). unfold get_name, reloc_symbol, section_by_index in G.
    apply bind_ok in G as (sy & Sy & G). apply bind_ok in Sy as (t & Ty & Sy). assert (t = ty) by congruence. subst t.
    apply bind_ok in Sy as (roff & Ro & Sy). apply bind_ok in Sy as (info & In & Sy). injection Sy as <-.
    rewrite (SM _ _ In) in G. apply RI in In.
    apply bind_ok in G as (dyn & Dy & G). apply bind_ok in G as (x & X & G). apply bind_ok in X as (sh & Sh & X). injection X as <-.
    apply e_shoff_iff in Sh. rewrite <- (shoff_fun _ _ _ _ SH Sh) in G. clear sh Sh.
    apply bind_ok in G as (soff & So & G). apply bind_ok in G as (value & Va & G). apply bind_ok in G as (str & St & G).
    apply bind_ok in G as (x & X & G). apply bind_ok in X as (sh & Sh & X). injection X as <-.
    apply e_shoff_iff in Sh. rewrite <- (shoff_fun _ _ _ _ SH Sh) in G. clear sh Sh.
    apply bind_ok in G as (toff & To & G). apply bind_ok in G as (name & Na & G). injection G as <- <-.
    apply sh_offset_iff in Ro, So, To. apply sh_link_iff in Dy, St. rewrite SS in Va, Na. apply VA in Va. apply NA in Na.
    exists roff, info, dyn, soff, str, toff, value, name. rewrite !(section_at f shoff) by exact SH.
    repeat (split; [assumption|]).
    destruct (negb (value mod 2 ^ 32 =? 0)) eqn:E.
    + injection H as <-. cbn. split; [reflexivity|]. lia.
    + apply bind_ok in H as (n & Hn & H). injection H as <-. apply string_from_iff in Hn. cbn. split; [lia|exact Hn].
  - intros (roff & info & dyn & soff & str & toff & value & name & Ro & In & Dy & So & St & To & Va & Na & H).
    rewrite (section_at f shoff) in Ro, Dy, So, St, To by exact SH.
    apply sh_offset_iff in Ro, So, To. apply sh_link_iff in Dy, St. apply VA in Va. apply NA in Na. apply RI in In. apply e_shoff_iff in SH.
    apply bind_ok. exists (toff + name, value mod 2 ^ 32). split.
    + unfold get_name, reloc_symbol, section_by_index. rewrite T. cbn [bind]. rewrite Ro. cbn [bind]. rewrite In. cbn [bind].
      rewrite (SM _ _ In), Dy. cbn [bind]. rewrite SH. cbn [bind]. rewrite So. cbn [bind]. rewrite SS, Va. cbn [bind]. rewrite St. cbn [bind].
      rewrite To. cbn [bind]. rewrite Na. reflexivity.
    + destruct m as [v | n].
      * destruct H as (-> & N). replace (negb (value mod 2 ^ 32 =? 0)) with true by lia. reflexivity.
      * destruct H as (E & S). rewrite E. cbn [negb Z.eqb]. apply string_from_iff in S. rewrite S. reflexivity.
Qed.

(* The loop in terms of the imports. *)
Fixpoint imports (f : list Z) (s i : Z) (n : nat) : res (list import) :=
  match n with
  | O => Ok []
  | S k => m <- import_of f s i ;; ms <- imports f s (i + 1) k ;; Ok (m :: ms)
  end.
Definition slot_of (chain : list table) (m : import) : slot :=
  match m with Defined v => Local v | Named n => Extern (find_address_by_name chain n) end.
Fixpoint lost (chain : list table) (ms : list import) : list (list Z) :=
  match ms with
  | [] => []
  | Defined _ :: ms => lost chain ms
  | Named n :: ms => if find_address_by_name chain n =? 0 then n :: lost chain ms else lost chain ms
  end.

Lemma bind_all_imports f chain s n : forall i,
  bind_all b64 f chain s i n = (ms <- imports f s i n ;; Ok (map (slot_of chain) ms, lost chain ms)).
Proof.
  induction n as [|n IH]; intros i; [reflexivity|]. cbn [bind_all imports]. unfold import_of.
  destruct (get_name b64 f s i) as [(o & v) | |]; cbn [bind]; try reflexivity.
  destruct (negb (v =? 0)).
  - cbn [bind]. rewrite IH. destruct (imports f s (i + 1) n); reflexivity.
  - destruct (string_from f o) as [nm | |]; cbn [bind]; try reflexivity. rewrite IH.
    destruct (imports f s (i + 1) n); cbn; try reflexivity; now destruct (find_address_by_name chain nm =? 0).
Qed.

Lemma imports_iff f shoff ty r : Forall byte f -> member f 0 (ehdr b64) 6 shoff -> section b64 f r 1 ty -> ty = 4 \/ ty = 9 -> forall n i ms,
  imports f (shoff + r * sizeof_shdr b64) i n = Ok ms <->
  length ms = n /\ forall k m, nth_error ms k = Some m -> import_at b64 f ty r (i + Z.of_nat k) m.
Proof.
  intros FB SH T D. induction n as [|n IH]; intros i ms; cbn [imports].
  - split.
    + intros H. injection H as <-. split; [reflexivity|]. intros [|k] m H; discriminate.
    + intros (L & _). destruct ms; [reflexivity|discriminate].
  - rewrite bind_ok. split.
    + intros (m & Hm & H). apply bind_ok in H as (ms' & H & E). injection E as <-. apply IH in H as (L & H).
      split; [cbn; congruence|]. intros [|k] m' E; cbn in E.
      * injection E as <-. apply (import_of_iff f shoff ty r) in Hm; auto. now rewrite Z.add_0_r.
      * replace (i + Z.of_nat (S k)) with (i + 1 + Z.of_nat k) by lia. auto.
    + intros (L & H). destruct ms as [|m ms]; [discriminate|]. exists m. split.
      * apply (import_of_iff f shoff ty r); auto. specialize (H 0%nat m eq_refl). now rewrite Z.add_0_r in H.
      * apply bind_ok. exists ms. split; [|reflexivity]. apply IH. cbn in L. split; [congruence|].
        intros k m' E. specialize (H (S k) m' E). now replace (i + 1 + Z.of_nat k) with (i + Z.of_nat (S k)) by lia.
Qed.

(* Looking up names. *)
Lemma Zs_eqb_iff a : forall b, Zs_eqb a b = true <-> a = b.
Proof.
  induction a as [|x a IH]; intros [|y b]; cbn [Zs_eqb]; try (split; [discriminate|discriminate]); try tauto.
  rewrite andb_true_iff, IH. split; [intros (E & ->); f_equal; lia | intros E; injection E as -> ->; split; [lia|reflexivity]].
Qed.

Lemma find_in_some t n a : find_in t n = Some a <-> exists l l', t = l ++ (n, a) :: l' /\ ~ In n (names l).
Proof.
  induction t as [|(m, b) t IH]; cbn [find_in].
  { split; [discriminate|]. intros (l & l' & E & _). destruct l; discriminate. }
  destruct (Zs_eqb n m) eqn:E.
  - apply Zs_eqb_iff in E. subst m. split.
    + intros H. injection H as ->. exists [], t. split; [reflexivity|]. intros [].
    + intros (l & l' & E & N). destruct l as [|p l]; cbn in E; [congruence|]. injection E as <- _. exfalso. apply N. now left.
  - rewrite IH. split.
    + intros (l & l' & -> & N). exists ((m, b) :: l), l'. split; [reflexivity|]. intros [K|K]; [|auto]. cbn in K. subst.
      assert (Zs_eqb n n = true) by now apply Zs_eqb_iff. congruence.
    + intros (l & l' & P & N). destruct l as [|p l]; cbn in P.
      * injection P as -> _ _. assert (Zs_eqb n n = true) by now apply Zs_eqb_iff. congruence.
      * injection P as <- ->. exists l, l'. split; [reflexivity|]. intros K. apply N. now right.
Qed.

Lemma find_in_none t n : find_in t n = None <-> ~ In n (names t).
Proof.
  induction t as [|(m, b) t IH]; cbn [find_in]; [split; auto|]. destruct (Zs_eqb n m) eqn:E.
  - apply Zs_eqb_iff in E. subst. split; [discriminate|]. intros N. exfalso. apply N. now left.
  - rewrite IH. split.
    + intros N [K|K]; [|auto]. cbn in K. subst. assert (Zs_eqb n n = true) by now apply Zs_eqb_iff. congruence.
    + intros N K. apply N. now right.
Qed.

Lemma find_address chain n : 
  (exists a, first_definition chain n a /\ find_address_by_name chain n = a) \/
  (Forall (fun u => ~ In n (names u)) chain /\ find_address_by_name chain n = 0).
Proof.
  induction chain as [|t ts IH]; cbn [find_address_by_name]; [right; auto|].
  destruct (find_in t n) as [a|] eqn:E.
  - left. exists a. split; [|reflexivity]. apply find_in_some in E as (l & l' & P & N). exists [], t, ts, l, l'. auto.
  - apply find_in_none in E. destruct IH as [(a & (ts1 & u & ts2 & l & l' & -> & F & P & N) & Ha) | (F & Ha)].
    + left. exists a. split; [|exact Ha]. exists (t :: ts1), u, ts2, l, l'. auto.
    + right. auto.
Qed.

Lemma first_definition_fun chain n a b : first_definition chain n a -> first_definition chain n b -> a = b.
Proof.
  assert (K : forall a, first_definition chain n a -> find_address_by_name chain n = a).
  { clear a b. intros a (ts & t & ts' & l & l' & -> & F & P & N). induction F as [|u ts Hu F IH]; cbn [app find_address_by_name].
    - replace (find_in t n) with (Some a); [reflexivity|]. symmetry. apply find_in_some. exists l, l'. auto.
    - apply find_in_none in Hu. now rewrite Hu. }
  intros A B. apply K in A. apply K in B. congruence.
Qed.

Lemma defined_not_absent chain n a : first_definition chain n a -> ~ Forall (fun u => ~ In n (names u)) chain.
Proof.
  intros (ts & t & ts' & l & l' & -> & _ & -> & _) F. apply Forall_app in F as (_ & F). inversion F as [|x y H _]; subst.
  apply H. unfold names. rewrite map_app, in_app_iff. right. now left.
Qed.

Lemma find_address_bound chain n a : a <> 0 -> first_definition chain n a <-> find_address_by_name chain n = a.
Proof.
  intros N. destruct (find_address chain n) as [(b & D & E) | (F & E)].
  - rewrite E. split; [now apply first_definition_fun | now intros <-].
  - rewrite E. split; [|congruence]. intros D. exfalso. eapply defined_not_absent; eauto.
Qed.

Lemma find_address_unbound chain n : unbound chain n <-> find_address_by_name chain n = 0.
Proof.
  unfold unbound. destruct (find_address chain n) as [(b & D & E) | (F & E)].
  - rewrite E. split.
    + intros [D'|F]; [eapply first_definition_fun; eauto|]. exfalso. eapply defined_not_absent; eauto.
    + intros ->. now left.
  - split; auto.
Qed.

Lemma lost_iff chain ms l : missing chain ms l <-> lost chain ms = l.
Proof.
  split.
  - induction 1 as [| | n ms l a D N _ IH | n ms l U _ IH]; cbn [lost]; auto.
    + apply find_address_bound in D; [|exact N]. rewrite D. now replace (a =? 0) with false by lia.
    + apply find_address_unbound in U. rewrite U. change (0 =? 0) with true. cbn iota. now f_equal.
  - revert l. induction ms as [|[v|n] ms IH]; intros l; cbn [lost].
    + intros <-. constructor.
    + intros H. constructor. auto.
    + destruct (find_address_by_name chain n =? 0) eqn:E.
      * intros <-. apply missing_unbound; [apply find_address_unbound; lia | auto].
      * intros H. eapply missing_bound; [apply find_address_bound; [|reflexivity]; lia | lia | auto].
Qed.

Lemma resolves_iff chain ms got : Forall2 (resolves chain) ms got <-> lost chain ms = [] /\ got = map (slot_of chain) ms.
Proof.
  split.
  - induction 1 as [|m s ms got R _ (IH1 & IH2)]; [split; reflexivity|]. destruct m as [v|n]; cbn [resolves lost map slot_of] in *.
    + subst. auto.
    + destruct R as (a & N & D & ->). apply find_address_bound in D; [|exact N]. rewrite D. replace (a =? 0) with false by lia. subst. auto.
  - intros (L & ->). induction ms as [|m ms IH]; [constructor|]. destruct m as [v|n]; cbn [lost map slot_of] in *.
    + constructor; [reflexivity|auto].
    + destruct (find_address_by_name chain n =? 0) eqn:E; [discriminate|]. constructor; [|auto].
      exists (find_address_by_name chain n). split; [lia|]. split; [apply find_address_bound; [lia|reflexivity]|reflexivity].
Qed.

Lemma reloc_type f ty r : reloc_section b64 f ty r -> section b64 f r 1 ty /\ (ty = 4 \/ ty = 9).
Proof. intros (num & _ & _ & (T & _) & _ & D). split; [exact T|]. tauto. Qed.

(* The imports that the code sees are those of the file. *)
Lemma program_iff f ms : Forall byte f ->
  program b64 machine f ms <-> exists s num, check_file b64 machine f = Ok (inr (s, num)) /\ imports f s 0 (Z.to_nat num) = Ok ms.
Proof.
  intros FB. split.
  - intros (G & ty & r & size & ent & K & Sz & En & N & L & I). pose proof Sz as Sz'. destruct Sz' as (shoff & SH & _).
    exists (shoff + r * sizeof_shdr b64), ((size / ent) mod 2 ^ 32). split.
    + apply check_file_iff. exists shoff, ty, r, size, ent. auto 10.
    + destruct (reloc_type _ _ _ K) as (T & D). apply (imports_iff f shoff ty r); auto. split; [lia|]. exact I.
  - intros (s & num & C & I). apply check_file_iff in C as (shoff & ty & r & size & ent & G & SH & K & -> & Sz & En & N & ->).
    destruct (reloc_type _ _ _ K) as (T & D). apply (imports_iff f shoff ty r) in I as (L & I); auto.
    split; [exact G|]. exists ty, r, size, ent. repeat (split; [assumption|]). split; [|exact I].
    rewrite L. apply Z2Nat.id. apply Z.mod_pos_bound. lia.
Qed.

Theorem called_iff f chain e got : Forall byte f ->
  load_invoke b64 machine f chain = Ok (inr (Called e got)) <->
  exists imps, program b64 machine f imps /\ entry_point b64 f e /\ Forall2 (resolves chain) imps got.
Proof.
  intros FB. unfold load_invoke. rewrite bind_ok. split.
  - intros ([er|(s & num)] & C & H); [discriminate|]. apply bind_ok in H as (x & X & H). injection H as ->.
    unfold invoke in X. rewrite bind_all_imports in X. destruct (imports f s 0 (Z.to_nat num)) as [ms| |] eqn:I; cbn [bind] in X; try discriminate.
    destruct (lost chain ms) eqn:L; [|discriminate]. apply bind_ok in X as (e' & E & X). injection X as -> <-.
    exists ms. split; [apply program_iff; eauto|]. split; [now apply e_entry_iff|]. apply resolves_iff. auto.
  - intros (ms & P & E & R). apply program_iff in P as (s & num & C & I); [|exact FB]. exists (inr (s, num)). split; [exact C|].
    apply bind_ok. exists (Called e got). split; [|reflexivity]. unfold invoke. rewrite bind_all_imports, I. cbn [bind].
    apply resolves_iff in R as (-> & ->). apply e_entry_iff in E. rewrite E. reflexivity.
Qed.

Theorem missing_iff f chain l : Forall byte f ->
  load_invoke b64 machine f chain = Ok (inr (Missing l)) <->
  l <> [] /\ exists imps, program b64 machine f imps /\ missing chain imps l.
Proof.
  intros FB. unfold load_invoke. rewrite bind_ok. split.
  - intros ([er|(s & num)] & C & H); [discriminate|]. apply bind_ok in H as (x & X & H). injection H as ->.
    unfold invoke in X. rewrite bind_all_imports in X. destruct (imports f s 0 (Z.to_nat num)) as [ms| |] eqn:I; cbn [bind] in X; try discriminate.
    destruct (lost chain ms) as [|a l'] eqn:L; [apply bind_ok in X as (e' & E & X); discriminate|]. injection X as <-.
    split; [discriminate|]. exists ms. split; [apply program_iff; eauto|]. now apply lost_iff.
  - intros (N & ms & P & M). apply program_iff in P as (s & num & C & I); [|exact FB]. exists (inr (s, num)). split; [exact C|].
    apply bind_ok. exists (Missing l). split; [|reflexivity]. unfold invoke. rewrite bind_all_imports, I. cbn [bind].
    apply lost_iff in M. rewrite M. destruct l; [congruence|reflexivity].
Qed.

Theorem program_runs f imps e chain : Forall byte f -> program b64 machine f imps -> entry_point b64 f e ->
  (exists got, load_invoke b64 machine f chain = Ok (inr (Called e got)) /\ length got = length imps) \/
  (exists l, load_invoke b64 machine f chain = Ok (inr (Missing l)) /\ l <> []).
Proof.
  intros FB P E. destruct (lost chain imps) as [|a l] eqn:L.
  - left. exists (map (slot_of chain) imps). split; [|apply map_length]. apply called_iff; [exact FB|]. exists imps.
    split; [exact P|]. split; [exact E|]. now apply resolves_iff.
  - right. exists (a :: l). split; [|discriminate]. apply missing_iff; [exact FB|]. split; [discriminate|]. exists imps.
    split; [exact P|]. now apply lost_iff.
Qed.

Theorem program_unique f m1 m2 : Forall byte f -> program b64 machine f m1 -> program b64 machine f m2 -> m1 = m2.
Proof. intros FB A B. apply program_iff in A as (s & n & C & I); auto. apply program_iff in B as (s' & n' & C' & I'); auto. congruence. Qed.

(* Refused files are not programs. *)
Theorem refused f chain e : Forall byte f -> load_invoke b64 machine f chain = Ok (inl e) -> forall imps, ~ program b64 machine f imps.
Proof.
  intros FB H imps P. apply program_iff in P as (s & n & C & _); [|exact FB]. unfold load_invoke in H. rewrite C in H. cbn in H.
  apply bind_ok in H as (x & _ & H). discriminate.
Qed.

End Elf.
