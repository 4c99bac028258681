From Verif Require Import Base CrcSpec FutfModel FutfSpec FutfProof LfnModel LfnSpec LfnProof FdirModel FdirSpec FdirProof FdirProof2 FdirProof3 FnameModel VolModel VolSpec VolProof.
Open Scope Z_scope.
Ltac Zify.zify_post_hook ::= idtac.

(* --- the text ----------------------------------------------------------------------------------- *)

Definition FORBIDDEN : list Z := [34; 42; 43; 44; 46; 47; 58; 59; 60; 61; 62; 63; 91; 92; 93; 124].
Definition goodb (c : Z) : bool := (32 <=? c) && (c <=? 126) && negb (existsb (Z.eqb c) FORBIDDEN).
Lemma good_bool c : goodb c = true <-> good c.
Proof.
  unfold goodb, good. fold FORBIDDEN. rewrite !andb_true_iff, negb_true_iff. split.
  - intros [[H1 H2] H3]. split; [lia|]. intros I. assert (X : existsb (Z.eqb c) FORBIDDEN = true); [|congruence]. apply existsb_exists. exists c. split; [auto|apply Z.eqb_refl].
  - intros [H1 H2]. split; [lia|]. destruct (existsb (Z.eqb c) FORBIDDEN) eqn:X; [|auto]. exfalso. apply H2. apply existsb_exists in X. destruct X as (x & I & X). apply Z.eqb_eq in X. now subst.
Qed.
Definition low_ok (c : Z) : bool :=
  let u := ff_uni2oem (capital c) in
  if (32 <=? c) && (c <? 128) then
    (if goodb c then negb (u =? 0) && negb (one_of u BADCHR) && (u =? capital c) && (32 <=? u) && (u <? 127) else one_of u BADCHR)
  else negb (goodb c).
Lemma low_all c : 0 <= c < 256 -> low_ok c = true.
Proof. apply FdirProof.byte_all. vm_compute. reflexivity. Qed.

Lemma high_first f c : scalar c -> 128 <= c -> f = utf8_of c \/ overlong f c -> forall b r l, f ++ r = b :: l -> 0 <= b < 256 -> f <> [].
Proof.
  intros S C [->|(n & N & _ & ->)] b r l _ _; [unfold utf8_of, utf8_form|unfold utf8_form]; repeat destruct (_ =? _); discriminate.
Qed.

Section Text.
Variables (c : Z) (rest : list Z).
Hypothesis (C : 0 <= c < 32) (R : Forall byte rest) (Z0 : In 0 (c :: rest)).

Lemma make_loop_ok : forall s fuel vn, Forall (fun b => 32 <= b < 256) s -> (length vn <= 11)%nat -> (12 - length vn <= fuel)%nat ->
  make_loop fuel (s ++ c :: rest) vn =
    Ok (if forallb goodb s && (length vn + length s <=? 11)%nat then Some (vn ++ map capital s) else None).
Proof.
  induction s as [|b s IH]; intros fuel vn F L Fu; (destruct fuel as [|fuel]; [lia|]); cbn [make_loop app next bind].
  - replace (c <? 32) with true by lia. cbn [forallb andb length map]. rewrite app_nil_r. now replace (length vn + 0 <=? 11)%nat with true by (symmetry; apply Nat.leb_le; lia).
  - inversion F as [|b' s' Hb F']; subst. replace (b <? 32) with false by lia. cbn [forallb length map].
    pose proof (low_all b ltac:(lia)) as Lo. unfold low_ok in Lo. cbv zeta in Lo.
    destruct (Z.ltb_spec b 128) as [Q|Q].
    + assert (T : tchar2uni (b :: s ++ c :: rest) = Ok (Some b, s ++ c :: rest)).
      { unfold tchar2uni. cbn [next bind]. destruct (lead_ok b) as (E1 & _); [unfold byte; lia|]. rewrite E1. now replace (b <? 128) with true by lia. }
      rewrite T. cbn [bind]. replace (b <? 65536) with true by lia. destruct (upper_ok b ltac:(lia)) as (U1 & _ & _ & _ & U2 & _). rewrite U1. cbn [bind].
      rewrite U2 by lia. fold (capital b). replace ((32 <=? b) && true) with true in Lo by lia. cbv iota in Lo.
      destruct (goodb b) eqn:G.
      * rewrite !andb_true_iff, !negb_true_iff in Lo. destruct Lo as ((((L1 & L2) & L3) & L4) & L5). rewrite L1, L2. cbn [orb andb].
        replace (256 <=? ff_uni2oem (capital b)) with false by lia. unfold len. destruct (Z.leb_spec 11 (Z.of_nat (length vn))) as [Q1|Q1].
        -- replace (length vn + S (length s) <=? 11)%nat with false by (symmetry; apply Nat.leb_gt; lia). now rewrite andb_false_r.
        -- rewrite IH by (auto; rewrite app_length; cbn [app length]; lia). cbn [app]. rewrite app_length. cbn [length]. rewrite <- app_assoc. cbn [app].
           rewrite Z.mod_small by lia. apply Z.eqb_eq in L3. rewrite L3. now replace (length vn + 1 + length s)%nat with (length vn + S (length s))%nat by lia.
      * rewrite Lo. rewrite orb_true_r. reflexivity.
    + assert (Gb : goodb b = false) by (replace (b <=? 126) with false in * by lia; unfold goodb; replace (b <=? 126) with false by lia; now rewrite andb_false_r).
      rewrite Gb. cbn [andb]. assert (Bt : Forall byte (b :: s ++ c :: rest)).
      { constructor; [unfold byte; lia|]. apply Forall_app. split; [|constructor; [unfold byte; lia|auto]]. eapply Forall_impl; [|exact F']. unfold byte. intros; lia. }
      destruct (decode_any (b :: s ++ c :: rest) Bt) as (o & r & -> & D); [right; apply in_or_app; auto|]. cbn [bind]. destruct o as [u|]; [|reflexivity].
      destruct D as (c' & f & Sc & -> & E & Hf). assert (C' : 128 <= c').
      { destruct (Z.lt_ge_cases c' 128) as [Y|Y]; [|lia]. exfalso. destruct Hf as [->|(n & _ & Y' & _)]; [|lia]. unfold utf8_of, utf8_count in E. replace (c' <? 128) with true in E by lia. change (utf8_form 1 c') with [c'] in E. cbn [app] in E. injection E as E _. lia. }
      destruct (Z.ltb_spec (utf16_of c') 65536) as [Y|Y]; [|reflexivity].
      assert (W : 128 <= utf16_of c') by (unfold utf16_of in *; destruct (Z.ltb_spec c' 65536); [lia|]; assert (0 <= (c' - 65536) / 1024) by (apply Z.div_pos; unfold scalar in *; lia); pose proof (Z.mod_pos_bound (c' - 65536) 1024); lia).
      destruct (upper_ok (utf16_of c') ltac:(lia)) as (U1 & _ & _ & U2 & _). rewrite U1. cbn [bind]. unfold ff_uni2oem. specialize (U2 W).
      replace (upper (utf16_of c') <? 32) with false by lia. replace (126 <? upper (utf16_of c')) with true by lia. reflexivity.
Qed.
End Text.

Lemma make_ok p s : says p s -> make_loop 13 p [] = Ok (if forallb goodb s && (length s <=? 11)%nat then Some (map capital s) else None).
Proof. intros (c & rest & -> & F & C & R & I). apply (make_loop_ok c rest C R I s 13 []); [auto|cbn; lia|cbn; lia]. Qed.
Lemma good_text_bool s : forallb goodb s && (length s <=? 11)%nat = true <-> good_text s.
Proof.
  unfold good_text. rewrite andb_true_iff, Nat.leb_le, Forall_forall, forallb_forall. split; intros [H1 H2]; (split; [|auto]); intros x X; apply good_bool; auto.
Qed.

Lemma snip_ok vn (f : Z -> Z) t : snipped vn t -> (forall k, (k < length vn)%nat -> f (Z.of_nat k) = nth k vn 32) -> snip (length vn) f = Z.of_nat (length t).
Proof.
  intros (n & -> & T) F. rewrite app_length, repeat_length in *. revert F. induction n as [|n IH]; intros F.
  - rewrite Nat.add_0_r in *. destruct (length t) as [|m] eqn:L; [auto|]. cbn [snip]. rewrite F by lia. rewrite app_nil_r.
    destruct (Z.eqb_spec (nth m t 32) 32) as [Q|Q]; [|auto]. exfalso. destruct (exists_last (l := t)) as (t' & x & E); [now intros ->|]. subst t. rewrite app_length in L. cbn in L. rewrite app_nth2 in Q by lia. replace (m - length t')%nat with 0%nat in Q by lia. cbn in Q. subst x. now apply (T t').
  - rewrite Nat.add_succ_r. cbn [snip]. rewrite F by lia. rewrite app_nth2 by lia. rewrite nth_repeat. change (32 =? 32) with true. cbv iota. apply IH. intros k K. rewrite F by lia.
    destruct (Nat.lt_ge_cases k (length t)); [now rewrite !app_nth1 by lia|]. rewrite !app_nth2 by lia. now rewrite !nth_repeat.
Qed.

Lemma snipped_nth s t k : snipped s t -> nth k s 32 = nth k t 32.
Proof.
  intros (n & -> & _). destruct (Nat.lt_ge_cases k (length t)); [now rewrite app_nth1 by lia|]. rewrite app_nth2 by lia. rewrite nth_repeat. now rewrite nth_overflow by lia.
Qed.

(* --- tables ------------------------------------------------------------------------------------- *)

Lemma replace_one d l1 x y l2 t : dir_ok d (l1 ++ x :: l2) -> size x = 1 -> size y = 1 -> stored t (sizes l1) y -> (forall j, j <> sizes l1 -> t j = tab d j) ->
  dir_ok (set_tab d t) (l1 ++ y :: l2).
Proof.
  intros D X Y St T. pose proof (dk_laid _ _ D) as L. apply laid_app in L. destruct L as [L1 [_ L2]]. rewrite Z.add_0_l, X in L2. pose proof (sizes_nonneg l1). pose proof (sizes_nonneg l2).
  assert (Sz : sizes (l1 ++ y :: l2) = sizes (l1 ++ x :: l2)) by (rewrite !sizes_app, !sizes_cons; lia).
  constructor; cbn [set_tab tab cap chunk spare]; rewrite ?Sz; try apply D.
  - apply laid_app. split; [apply (laid_ext (tab d)); [intros; apply T; lia|auto]|]. rewrite Z.add_0_l. cbn [laid]. rewrite Y. split; [auto|]. apply (laid_ext (tab d)); [intros; apply T; lia|auto].
  - intros j J. pose proof J as J'. rewrite sizes_app, sizes_cons in J'. rewrite T by lia. now apply (dk_tail _ _ D).
Qed.
Lemma insert_one d l1 h l2 y t : dir_ok d (l1 ++ repeat Hole h ++ l2) -> h = 1%nat \/ h = 0%nat /\ l2 = [] -> sizes l1 < cap d -> size y = 1 -> stored t (sizes l1) y -> (forall j, j <> sizes l1 -> t j = tab d j) ->
  dir_ok (set_tab d t) (l1 ++ y :: l2).
Proof.
  intros D [->|[-> ->]] R Y St T; [apply (replace_one d l1 Hole y l2); auto|]. cbn [repeat app] in D. rewrite app_nil_r in D.
  pose proof (sizes_nonneg l1). assert (Sz : sizes (l1 ++ [y]) = sizes l1 + 1) by (rewrite sizes_app, sizes_cons; cbn; lia).
  constructor; cbn [set_tab tab cap chunk spare]; rewrite ?Sz; try apply D; [|lia|].
  - apply laid_app. split; [apply (laid_ext (tab d)); [intros; apply T; lia|apply D]|]. rewrite Z.add_0_l. cbn [laid]. auto.
  - intros j J. rewrite T by lia. apply (dk_tail _ _ D). lia.
Qed.

Lemma capital_good c : good c -> 32 <= capital c <= 126.
Proof. intros [H _]. unfold capital. destruct (Z.leb_spec 97 c), (Z.leb_spec c 122); cbn [andb]; lia. Qed.

Theorem set_ok d l p s : dir_ok d l -> says p s ->
  (~ good_text s -> set_label d p = Ok (d, D_INVALID_NAME)) /\
  (good_text s -> forall t, snipped (map capital s) t ->
    (forall l1 e l2, labelled l l1 e l2 -> exists d', set_label d p = Ok (d', D_OK) /\
       match t with
       | [] => dir_ok d' (l1 ++ Hole :: l2)
       | _ => exists e', dir_ok d' (l1 ++ Label e' :: l2) /\ names e' t /\ forall k, 11 <= k -> e' k = e k
       end) /\
    (unlabelled l ->
       match t with
       | [] => set_label d p = Ok (d, D_OK)
       | _ =>
           (exists d' l1 h l2 e', set_label d p = Ok (d', D_OK) /\ l = l1 ++ repeat Hole h ++ l2 /\ (h = 1%nat \/ h = 0%nat /\ l2 = []) /\
              dir_ok d' (l1 ++ Label e' :: l2) /\ names e' t /\ e' 11 = 8 /\ forall k, 12 <= k < 32 -> e' k = 0) \/
           (exists d', set_label d p = Ok (d', D_DENIED) /\ dir_ok d' l /\ no_room d' 1 /\ forall j, j < cap d -> tab d' j = tab d j)
       end)).
Proof.
  intros D P. unfold set_label. rewrite (make_ok p s P). cbn [bind]. split.
  { intros N. destruct (forallb goodb s && (length s <=? 11)%nat) eqn:G; [|reflexivity]. apply good_text_bool in G. contradiction. }
  intros G t T. pose proof G as G0. apply good_text_bool in G0. rewrite G0. set (v := map capital s) in *. set (f := fun k => nth (Z.to_nat k) v 32).
  assert (Fv : forall k, 32 <= f k <= 126).
  { intros k. unfold f. destruct (Nat.lt_ge_cases (Z.to_nat k) (length v)) as [Q|Q]; [|rewrite nth_overflow by lia; lia].
    assert (I : In (nth (Z.to_nat k) v 32) v) by (apply nth_In; auto). unfold v in I at 2. apply in_map_iff in I. destruct I as (x & E & I). rewrite <- E. apply capital_good. destruct G as [G _]. rewrite Forall_forall in G. auto. }
  assert (Nf : forall k, 0 <= k -> f k = nth (Z.to_nat k) t 32) by (intros; unfold f; now apply snipped_nth).
  cbv zeta. replace (nth (Z.to_nat 0) v 32 =? DDEM) with false by (pose proof (Fv 0) as F0; unfold f in F0; unfold DDEM; lia).
  assert (Sn : snip (length v) f = Z.of_nat (length t)) by (apply snip_ok; [auto|]; intros k K; unfold f; now rewrite Nat2Z.id).
  rewrite Sn. destruct (read_label_ok d l D) as [R1 R2]. pose proof (all_bytes d l D) as Ab. pose proof (dk_cap _ _ D) as Cp. split.
  - intros l1 e l2 Lb. rewrite (R2 _ _ _ Lb). cbn [bind]. destruct Lb as (El & Ul & D0). subst l.
    pose proof (dk_laid _ _ D) as L. apply laid_app in L. destruct L as [_ [[L (Be & E0 & E1 & E2)] _]]. rewrite Z.add_0_l in L. eexists. split; [reflexivity|].
    destruct t as [|x t0] eqn:Et.
    + change (Z.of_nat (length []) =? 0) with true. cbn [negb]. apply (replace_one d l1 (Label e) Hole l2); [auto|auto|auto| |].
      * cbn [stored]. unfold set_ent. rewrite Z.eqb_refl, L. split; [apply upd_bytes; [auto|unfold DDEM; lia]|apply upd_same].
      * intros j J. unfold set_ent. now replace (j =? sizes l1) with false by lia.
    + rewrite <- Et in *. replace (Z.of_nat (length t) =? 0) with false by (rewrite Et; cbn [length]; lia). cbn [negb]. rewrite L.
      set (e' := fun k => if (0 <=? k) && (k <? 11) then f k else e k). exists e'. split; [|split].
      * apply (replace_one d l1 (Label e) (Label e') l2); [auto|auto|auto| |intros j J; unfold set_ent; now replace (j =? sizes l1) with false by lia].
        cbn [stored]. unfold set_ent. rewrite Z.eqb_refl. split; [auto|]. split; [|split; [|split]].
        -- intros k. unfold e'. destruct ((0 <=? k) && (k <? 11)); [clear - Fv; specialize (Fv k); unfold f, DDEM in *; lia|apply Be].
        -- unfold e'. change ((0 <=? 0) && (0 <? 11)) with true. cbv iota. clear - Fv; specialize (Fv 0); unfold f, DDEM in *; lia.
        -- unfold e'. change ((0 <=? 0) && (0 <? 11)) with true. cbv iota. clear - Fv; specialize (Fv 0); unfold f, DDEM in *; lia.
        -- exact E2.
      * intros k K. unfold e'. replace ((0 <=? k) && (k <? 11)) with true by lia. apply Nf. lia.
      * intros k K. unfold e'. now replace ((0 <=? k) && (k <? 11)) with false by lia.
  - intros U. destruct (R1 U) as (i & ->). cbn [bind]. destruct t as [|x t0] eqn:Et; [reflexivity|]. rewrite <- Et in *.
    replace (Z.of_nat (length t) =? 0) with false by (rewrite Et; cbn [length]; lia).
    destruct (alloc_ok d l 1 D ltac:(lia)) as (d1 & r & k & -> & D1 & C1 & T1 & [(-> & K & Ks & Fr)|[-> N]]); cbn [bind]; [left|right; exists d1; auto].
    destruct (free_run (tab d1) l 0 k 1 (dk_laid _ _ D1) ltac:(lia) ltac:(right; lia)) as (l1 & h & l2 & El & Es & Hh); [intros j J; apply Fr; lia|]. rewrite Z.add_0_l in Es.
    set (e' := fun j => if (0 <=? j) && (j <? 32) then if j =? 11 then 8 else if j <? 11 then f j else 0 else tab d1 k j).
    do 1 eexists. exists l1, h, l2, e'. split; [reflexivity|]. split; [auto|]. assert (Hh' : h = 1%nat \/ h = 0%nat /\ l2 = []) by (destruct Hh as [Hh|[Hh H2]]; [auto|right; split; [lia|auto]]).
    split; [auto|]. split; [|split; [|split]].
    + apply (insert_one d1 l1 h l2 (Label e')); [now rewrite <- El|auto|lia|auto| |].
      * cbn [stored]. unfold set_ent. rewrite Es, Z.eqb_refl. split; [auto|]. split; [|split; [|split]].
        -- intros j. unfold e'. destruct ((0 <=? j) && (j <? 32)); [|apply (all_bytes d1 l D1); lia]. destruct (j =? 11); [lia|]. destruct (j <? 11); [clear - Fv; specialize (Fv j); unfold f, DDEM in *; lia|lia].
        -- change (e' 0) with (f 0). clear - Fv; specialize (Fv 0); unfold f, DDEM in *; lia.
        -- change (e' 0) with (f 0). clear - Fv; specialize (Fv 0); unfold f, DDEM in *; lia.
        -- reflexivity.
      * intros j J. unfold set_ent. now replace (j =? k) with false by lia.
    + intros j J. unfold e'. replace ((0 <=? j) && (j <? 32)) with true by lia. replace (j =? 11) with false by lia. replace (j <? 11) with true by lia. apply Nf. lia.
    + reflexivity.
    + intros j J. unfold e'. replace ((0 <=? j) && (j <? 32)) with true by lia. replace (j =? 11) with false by lia. now replace (j <? 11) with false by lia.
Qed.

(* --- setting and getting ------------------------------------------------------------------------- *)

Lemma ascii_of l : Forall (fun c => 32 <= c <= 126) l -> concat (map utf8_of l) = l.
Proof.
  induction 1 as [|c l C F IH]; [auto|]. cbn [map concat]. rewrite IH. unfold utf8_of, utf8_count. now replace (c <? 128) with true by lia.
Qed.
Lemma names_chars e t : names e t -> (length t <= 11)%nat -> chars e = t ++ repeat 32 (11 - length t).
Proof.
  intros N L. apply (nth_ext _ _ 32 32); [unfold chars; rewrite map_length, app_length, repeat_length; cbn [length]; lia|].
  unfold chars. rewrite map_length. cbn [length]. intros n Hn.
  assert (E : nth n (map e [0; 1; 2; 3; 4; 5; 6; 7; 8; 9; 10]) 32 = e (Z.of_nat n)) by (do 11 (destruct n as [|n]; [reflexivity|]); lia).
  rewrite E, N by lia. rewrite Nat2Z.id. destruct (Nat.lt_ge_cases n (length t)); [now rewrite app_nth1 by lia|]. rewrite app_nth2 by lia. rewrite nth_repeat. now rewrite nth_overflow by lia.
Qed.
Lemma text_of s t : good_text s -> snipped (map capital s) t -> (length t <= 11)%nat /\ Forall (fun c => 32 <= c <= 126) t /\ (forall t', t <> t' ++ [32]) /\ forall x t', t = x :: t' -> x <> 46.
Proof.
  intros [G L] Sn. pose proof (snipped_len _ _ Sn) as Ln. rewrite map_length in Ln. destruct Sn as (n & E & T). split; [lia|].
  assert (F : Forall (fun c => (32 <= c <= 126) /\ c <> 46) (t ++ repeat 32 n)).
  { rewrite <- E. rewrite Forall_forall in *. intros x I. apply in_map_iff in I. destruct I as (y & <- & I). pose proof (G y I) as Gy. split; [now apply capital_good|]. destruct Gy as [Hy Iy]. unfold capital.
    destruct ((97 <=? y) && (y <=? 122)) eqn:Y; [lia|]. intros ->. apply Iy. cbn. auto 12. }
  apply Forall_app in F. destruct F as [F _]. split; [eapply Forall_impl; [|exact F]; cbv beta; tauto|]. split; [auto|]. intros x t' ->. inversion F. tauto.
Qed.
Lemma shows_text e t u : names e t -> (length t <= 11)%nat -> Forall (fun c => 32 <= c <= 126) t -> (forall t', t <> t' ++ [32]) -> shows e u -> u = t.
Proof.
  intros N L F T S. assert (R : forall k, 0 <= k < 11 -> 32 <= e k <= 126).
  { intros k K. rewrite N by auto. destruct (Nat.lt_ge_cases (Z.to_nat k) (length t)) as [Q|Q]; [|rewrite nth_overflow by lia; lia]. rewrite Forall_forall in F. apply F, nth_In. auto. }
  destruct S as [[(k & K & E) _]|[_ S]]; [specialize (R k K); lia|].
  rewrite ascii_of in S by (unfold chars; repeat (constructor; [apply R; lia|]); constructor). rewrite (names_chars e t) in S by auto. apply (snipped_unique _ _ _ S). now apply snipped_again.
Qed.

Lemma labelled_files l l1 e l2 : labelled l l1 e l2 -> files l = files (l1 ++ l2).
Proof. intros (-> & _). now rewrite !files_app. Qed.

Theorem again_ok d l p s room : dir_ok d l -> says p s -> 23 <= room -> unlabelled l \/ (exists l1 e l2, labelled l l1 e l2 /\ unlabelled l2) ->
  exists d' r l', set_label d p = Ok (d', r) /\ dir_ok d' l' /\ files l' = files l /\
    match r with
    | D_OK => good_text s /\ exists t, snipped (map capital s) t /\ get_label d' room = Ok (D_OK, t)
    | D_INVALID_NAME => ~ good_text s /\ d' = d
    | D_DENIED => good_text s /\ unlabelled l /\ no_room d' 1 /\ get_label d' room = Ok (D_OK, [])
    | _ => False
    end.
Proof.
  intros D P R One. destruct (set_ok d l p s D P) as [S1 S2]. destruct (forallb goodb s && (length s <=? 11)%nat) eqn:G.
  2:{ assert (N : ~ good_text s) by (intros X; apply good_text_bool in X; congruence). exists d, D_INVALID_NAME, l. split; [now apply S1|]. auto. }
  apply good_text_bool in G. specialize (S2 G). pose proof (trim_ok (map capital s)) as T. set (t := trim (map capital s)) in *. clearbody t. destruct (S2 t T) as [A1 A2].
  destruct (text_of s t G T) as (T1 & T2 & T3 & T4).
  assert (New : forall d' l1 e' l2, dir_ok d' (l1 ++ Label e' :: l2) -> t <> [] -> unlabelled l1 -> names e' t -> get_label d' room = Ok (D_OK, t)).
  { intros d' l1 e' l2 D' Tn U1 N. destruct (get_ok d' _ room D' R) as [Q _]. destruct (Q l1 e' l2) as (u & Q1 & Q2).
    - split; [auto|]. split; [auto|]. rewrite N by lia. destruct t as [|x t']; [easy|]. cbn. now apply (T4 x t').
    - rewrite Q1. now rewrite (shows_text e' t u). }
  destruct One as [U|(l1 & e & l2 & Lb & U2)].
  - specialize (A2 U). destruct t as [|x t'] eqn:Et.
    + exists d, D_OK, l. split; [auto|]. split; [auto|]. split; [auto|]. split; [auto|]. exists []. split; [auto|]. now apply (get_ok d l room D R).
    + rewrite <- Et in *. destruct A2 as [(d' & l1 & h & l2 & e' & E & El & Hh & D' & N & _)|(d' & E & D' & N & _)].
      * exists d', D_OK, (l1 ++ Label e' :: l2). split; [auto|]. split; [auto|]. split; [rewrite El, !files_app, files_holes; reflexivity|]. split; [auto|]. exists t. split; [auto|].
        apply (New d' l1 e' l2); [auto|congruence| |auto]. rewrite El in U. apply Forall_app in U. apply U.
      * exists d', D_DENIED, l. split; [auto|]. split; [auto|]. split; [auto|]. split; [auto|]. split; [auto|]. split; [auto|]. now apply (get_ok d' l room D' R).
  - destruct (A1 _ _ _ Lb) as (d' & E & H). pose proof Lb as (El & U1 & _). destruct t as [|x t'] eqn:Et.
    + exists d', D_OK, (l1 ++ Hole :: l2). split; [auto|]. split; [auto|]. split; [rewrite El, !files_app; reflexivity|]. split; [auto|]. exists []. split; [auto|].
      apply (get_ok d' _ room H R). apply Forall_app. split; [auto|]. constructor; [exact I|auto].
    + rewrite <- Et in *. destruct H as (e' & D' & N & _). exists d', D_OK, (l1 ++ Label e' :: l2). split; [auto|]. split; [auto|]. split; [rewrite El, !files_app; reflexivity|]. split; [auto|]. exists t. split; [auto|].
      apply (New d' l1 e' l2); [auto|congruence|auto|auto].
Qed.
