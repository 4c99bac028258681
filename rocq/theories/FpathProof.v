From Verif Require Import Base CrcSpec FutfModel FutfSpec FutfProof LfnModel LfnSpec LfnProof FdirModel FdirSpec FdirProof FdirProof3 FnameModel FnameSpec FnameProof FnameProof2 FnameProof3 FnameProof4 FnameProof5 FnameProof6 FpathModel FpathSpec.
Open Scope Z_scope.

(* --- fields of entries --------------------------------------------------------------------- *)
Lemma ld_st e o x : 0 <= x < 65536 -> ld_word (st_word e o x) o = x.
Proof.
  intros X. unfold ld_word, st_word. rewrite upd_same, upd_other, upd_same by lia. Z.to_euclidean_division_equations; lia.
Qed.
Lemma ld_st_other e o x p : p + 1 < o \/ o + 1 < p -> ld_word (st_word e o x) p = ld_word e p.
Proof. intros P. unfold ld_word. rewrite !st_other by lia. auto. Qed.
Lemma st_bytes e o x : bytes e -> bytes (st_word e o x).
Proof.
  intros B k. unfold st_word, upd. destruct (k =? o + 1); [apply Z.mod_pos_bound; lia|]. destruct (k =? o); [apply Z.mod_pos_bound; lia|apply B].
Qed.
Lemma st_dword_other e o x k : k < o \/ o + 4 <= k -> st_dword e o x k = e k.
Proof. intros K. unfold st_dword. rewrite !st_other by lia. auto. Qed.
Lemma st_dword_bytes e o x : bytes e -> bytes (st_dword e o x).
Proof. intros. unfold st_dword. now apply st_bytes, st_bytes. Qed.
Lemma ld_st_dword e o x : dword x -> ld_dword (st_dword e o x) o = x.
Proof.
  unfold dword. intros X. unfold ld_dword, st_dword. rewrite ld_st by (apply Z.mod_pos_bound; lia). rewrite ld_st_other by lia. rewrite ld_st by (apply Z.mod_pos_bound; lia). Z.to_euclidean_division_equations; lia.
Qed.
Lemma ld_dword_ext e e' o : (forall k, o <= k < o + 4 -> e' k = e k) -> ld_dword e' o = ld_dword e o.
Proof. intros H. unfold ld_dword, ld_word. rewrite !H by lia. auto. Qed.
Lemma word_range e o : bytes e -> 0 <= ld_word e o < 65536.
Proof. intros B. unfold ld_word. pose proof (B o). pose proof (B (o + 1)). lia. Qed.

Lemma join_words a b : 0 <= a < 65536 -> 0 <= b -> Z.lor a (Z.shiftl b 16) = a + 65536 * b.
Proof.
  intros A B. rewrite Z.shiftl_mul_pow2 by lia. change (2 ^ 16) with 65536. symmetry. rewrite Z.mul_comm.
  rewrite <- Z.lxor_lor; [|apply Z.bits_inj'; intros n N; rewrite Z.bits_0, Z.land_spec; destruct (Z.ltb_spec n 16) as [L|L];
    [change 65536 with (2 ^ 16); rewrite Z.mul_pow2_bits_low by lia; apply andb_false_r|rewrite (Z.bits_above_log2 a n), andb_false_l; [auto|lia|]; destruct (Z.eq_dec a 0) as [->|]; [cbn; lia|apply Z.log2_lt_pow2; [lia|]; apply Z.lt_le_trans with 65536; [lia|]; change 65536 with (2 ^ 16); apply Z.pow_le_mono_r; lia]]].
  apply Z.add_nocarry_lxor. apply Z.bits_inj'; intros n N; rewrite Z.bits_0, Z.land_spec; destruct (Z.ltb_spec n 16) as [L|L];
    [change 65536 with (2 ^ 16); rewrite Z.mul_pow2_bits_low by lia; apply andb_false_r|rewrite (Z.bits_above_log2 a n), andb_false_l; [auto|lia|]; destruct (Z.eq_dec a 0) as [->|]; [cbn; lia|apply Z.log2_lt_pow2; [lia|]; apply Z.lt_le_trans with 65536; [lia|]; change 65536 with (2 ^ 16); apply Z.pow_le_mono_r; lia]].
Qed.
Definition fits_clu (b : bool) (c : Z) : Prop := 0 <= c < if b then 268435456 else 65536.
Lemma ld_st_clust b e c : fits_clu b c -> ld_clust b (st_clust b e c) = c.
Proof.
  unfold fits_clu, ld_clust, st_clust. destruct b; intros C.
  - rewrite ld_st_other, !ld_st by (lia || (apply Z.mod_pos_bound; lia)). rewrite join_words by (try apply Z.mod_pos_bound; Z.to_euclidean_division_equations; lia). Z.to_euclidean_division_equations; lia.
  - rewrite ld_st by (apply Z.mod_pos_bound; lia). rewrite Z.mod_small by lia. auto.
Qed.
Lemma st_clust_other b e c k : ~ In k CLU -> st_clust b e c k = e k.
Proof. unfold CLU, st_clust. cbn [In]. intros K. destruct b; rewrite !st_other by lia; auto. Qed.
Lemma st_clust_bytes b e c : bytes e -> bytes (st_clust b e c).
Proof. intros B. unfold st_clust. destruct b; auto using st_bytes. Qed.
Lemma ld_clust_ext b e e' : (forall k, In k CLU -> e' k = e k) -> ld_clust b e' = ld_clust b e.
Proof. unfold CLU. cbn [In]. intros H. unfold ld_clust, ld_word. change (26 + 1) with 27. change (20 + 1) with 21. rewrite !H by auto. auto. Qed.

(* --- names --------------------------------------------------------------------------------- *)
Lemma has64 x last fn : form x last fn -> has (fn 11) 64 = false.
Proof.
  intros F. pose proof (fm_range _ _ _ F). assert (Q : forallb (fun v => negb (has v 64)) (map Z.of_nat (seq 0 32)) = true) by reflexivity. rewrite forallb_forall in Q. specialize (Q (fn 11)). rewrite in_map_iff in Q. apply negb_true_iff, Q. exists (Z.to_nat (fn 11)). split; [lia|apply in_seq; lia].
Qed.
Lemma has_form x last fn : form x last fn -> has (fn 11) 160 = false /\ has (fn 11) 128 = false /\ has (fn 11) 32 = false.
Proof.
  intros F. pose proof (fm_range _ _ _ F). assert (Q : forallb (fun v => negb (has v 160) && negb (has v 128) && negb (has v 32)) (map Z.of_nat (seq 0 32)) = true) by reflexivity. rewrite forallb_forall in Q. specialize (Q (fn 11)). rewrite in_map_iff in Q.
  assert (R : negb (has (fn 11) 160) && negb (has (fn 11) 128) && negb (has (fn 11) 32) = true) by (apply Q; exists (Z.to_nat (fn 11)); split; [lia|apply in_seq; lia]). rewrite !andb_true_iff, !negb_true_iff in R. tauto.
Qed.
Lemma hit_called cs last fn f : form (utf16 cs) last fn -> hit (utf16 cs) fn f <-> called cs f.
Proof.
  intros F. pose proof (has64 _ _ _ F) as H64. unfold hit, called. split.
  - intros [(_ & A & B)|[A B]]; [left; auto|]. right. destruct (no_loss _ _ _ F A) as (b & e & Sp & Ft). exists b, e. split; [auto|]. split; [auto|]. intros k K. rewrite B by auto. now apply (fm_short _ _ _ F).
  - intros [[A B]|(b & e & Sp & Ft & P)]; [left; auto|]. right. split.
    + destruct (has (fn 11) 1) eqn:Lo; [|auto]. exfalso. apply (some_loss _ _ _ F Lo). exists b, e. auto.
    + intros k K. rewrite P by auto. symmetry. now apply (fm_short _ _ _ F).
Qed.

Lemma units_of_blank u : blank u -> units_of u = [u].
Proof. intros B. unfold units_of. unfold blank in B. now replace (u <? 65536) with true by lia. Qed.
Lemma utf16_app a b : utf16 (a ++ b) = utf16 a ++ utf16 b.
Proof. apply flat_map_app. Qed.
Lemma utf16_blank t : Forall blank t -> utf16 t = t.
Proof. induction 1 as [|u t B _ IH]; [auto|]. unfold utf16 in *. cbn [flat_map]. rewrite IH, units_of_blank by auto. auto. Qed.
Lemma last_unit cs u z : Forall name_char (cs ++ [u]) -> ~ blank u -> utf16 (cs ++ [u]) = z -> forall y w, z = y ++ [w] -> ~ blank w.
Proof.
  intros F B <- y w E. rewrite utf16_app in E. unfold utf16 in E at 2. cbn [flat_map] in E. rewrite app_nil_r in E. unfold units_of in E. apply Forall_app in F as [_ F]. inversion F as [|? ? (Sc & _) _]; subst.
  destruct (Z.ltb_spec u 65536).
  - apply app_inj_tail in E as [_ <-]. auto.
  - unfold scalar in Sc. destruct (pair_split u ltac:(lia)) as (_ & _ & _ & _ & _ & B2).
    change [55296 + (u - 65536) / 1024; 56320 + (u - 65536) mod 1024] with ([55296 + (u - 65536) / 1024] ++ [56320 + (u - 65536) mod 1024]) in E. rewrite app_assoc in E. apply app_inj_tail in E as [_ <-]. unfold blank. lia.
Qed.
Lemma snip_chars cs y : Forall name_char cs -> snipped cs y -> snipped (utf16 cs) (utf16 y).
Proof.
  intros F (t & -> & T & Last). exists t. rewrite utf16_app, (utf16_blank t) by auto. split; [auto|]. split; [auto|]. intros y' u E.
  apply Forall_app in F as [F _]. destruct y as [|c y] using rev_ind; [destruct y'; discriminate|]. eapply last_unit; eauto.
Qed.
Lemma snip_unique x y y' : snipped x y -> snipped x y' -> y = y'.
Proof.
  intros (t & E & T & L) (t' & E' & T' & L'). subst x. revert t T t' E' T'.
  assert (G : forall y t y' t', y ++ t = y' ++ t' -> Forall blank t -> (forall z u, y' = z ++ [u] -> ~ blank u) -> exists s, y = y' ++ s).
  { clear. intros y t y' t' E T L'. apply (f_equal (@rev Z)) in E. rewrite !rev_app_distr in E.
    assert (Q : forall a b c d : list Z, a ++ b = c ++ d -> Forall blank a -> (forall u r, d = u :: r -> ~ blank u) -> exists s, b = s ++ d).
    { clear. induction a as [|x a IH]; intros b c d E T N; cbn in E; [exists c; auto|]. destruct c as [|z c]; cbn in E.
      - inversion T; subst. exfalso. eapply N; eauto.
      - injection E as -> E. inversion T; subst. eapply IH; eauto. }
    destruct (Q (rev t) (rev y) (rev t') (rev y')) as [s S]; [auto|now apply Forall_rev| |].
    - intros u r R. apply (L' (rev r) u). rewrite <- (rev_involutive y'), R. reflexivity.
    - exists (rev s). rewrite <- (rev_involutive y), S, rev_app_distr, rev_involutive. auto. }
  intros t T t' E' T'. destruct (G y t y' t' E' T L') as [s S]. destruct (G y' t' y t (eq_sym E') T' L) as [s' S']. subst y'. rewrite <- app_assoc in S. rewrite <- (app_nil_r y) in S at 1. apply app_inv_head in S. symmetry in S. apply app_eq_nil in S as [-> ->]. now rewrite app_nil_r.
Qed.
Lemma utf16_nil cs : utf16 cs = [] -> cs = [].
Proof. destruct cs as [|c cs]; [auto|]. unfold utf16. cbn [flat_map]. unfold units_of. destruct (c <? 65536); discriminate. Qed.

Lemma good_clean cs : good_name cs -> clean (utf16 cs) /\ name_ok (utf16 cs).
Proof.
  intros (F & N & L & La). split; [split; [now apply utf16_units|]|].
  - intros z u E. destruct cs as [|c cs] using rev_ind; [destruct z; discriminate|]. eapply last_unit; eauto.
  - split; [|unfold zlen in L; split; [|lia]; destruct cs as [|c cs]; [easy|]; unfold utf16; cbn [flat_map]; unfold units_of; destruct (c <? 65536); cbn [app length]; lia].
    clear - F. induction F as [|c cs (Sc & N & C & _) _ IH]; [constructor|]. unfold utf16 in *. cbn [flat_map]. apply Forall_app. split; [|auto].
    unfold units_of. unfold scalar in Sc. destruct (Z.ltb_spec c 65536); [repeat constructor; unfold unit_ok; lia|]. destruct (pair_split c ltac:(lia)) as (_ & _ & _ & _ & A & B). repeat constructor; lia.
Qed.
Lemma snip_good cs y : Forall name_char cs -> zlen (utf16 cs) <= 255 -> snipped cs y -> y <> [] -> good_name y.
Proof.
  intros F L (t & -> & T & La) N. apply Forall_app in F as [F _]. split; [auto|]. split; [auto|]. split; [|auto]. rewrite utf16_app, zlen_app in L. pose proof (zlen_nonneg (utf16 t)). lia.
Qed.

(* --- dot names ----------------------------------------------------------------------------- *)
Lemma same_dots w n : u16 w -> same_name w (repeat 46 n) -> w = repeat 46 n.
Proof.
  revert n. induction w as [|u w IH]; intros n U S; [destruct n; [auto|discriminate]|]. destruct n as [|n]; [discriminate|]. cbn [repeat] in *. unfold same_name in *. cbn [map] in S. injection S as S1 S2. inversion U; subst.
  apply upper_ascii in S1; [|lia|lia]. change (up 46) with 46 in S1. apply up_dot in S1 as ->. f_equal. apply IH; auto.
Qed.
Lemma made_dots f n last fn : (n = 1 \/ n = 2)%nat -> (exists cs, good_name cs /\ named cs f) -> shown f = true -> dot_form (Z.of_nat n) last fn -> ~ hit (repeat 46 n) fn f.
Proof.
  intros N (cs & G & (la & fm & Fm & Ew & _ & _)) S [D _] [(_ & W & Q)|[_ Q]].
  - destruct (has (fm 11) 2); [|congruence]. rewrite Ew in *. destruct (good_clean cs G) as [[Cx _] _]. apply same_dots in Q; [|revert Cx; apply Forall_impl; lia].
    destruct G as (Gf & Gn & _ & La). apply utf16_dots in Q; [|auto]. destruct N as [-> | ->]; cbn [repeat] in Q; [apply (La [] 46)|apply (La [46] 46)]; auto; right; auto.
  - unfold shown in S. rewrite (Q 0), (D 0) in S by lia. now replace (0 <? Z.of_nat n) with true in S by lia.
Qed.
Lemma dot_hit e n k c b last fn : dot_at b e k c -> dot_form n last fn -> 1 <= n <= 2 -> 1 <= k <= 2 -> hit (repeat 46 (Z.to_nat n)) fn ([], e) <-> k = n.
Proof.
  intros [D _] [F1 F2] N K. unfold hit. cbn [fst snd]. split.
  - intros [(_ & W & _)|[_ Q]]; [easy|]. specialize (Q 1 ltac:(lia)). rewrite D, F1 in Q by lia. destruct (Z.ltb_spec 1 k), (Z.ltb_spec 1 n); lia.
  - intros ->. right. rewrite F2. split; [destruct last; reflexivity|]. intros j J. now rewrite D, F1 by lia.
Qed.
