(* f_forward, and the effect on all open files. *)
From Coq Require Import ZifyClasses ZifyInst ZifyBool.
From Verif Require Import Base FatModel FatSpec FileModel FileSpec FatProof FatProof2 FatProof3 FatProof4 FatProof5 FatProof6
  FileProof FileProof2 FileProof3 FileProof4 FileProof5 FileProof6 FileProof7 FileProof8 ExpandSpec ExpandProof ExpandProof2 FastModel FastSpec FastProof FastProof2.
Open Scope Z_scope.
Ltac Zify.zify_post_hook ::= idtac.

(* --- one file changes ------------------------------------------------------------------ *)

Definition rest_of (fs : list fil) (cs : list (list Z)) : list Z := concat (skipn (length fs) cs).

Lemma files_ready g v cs fs ds k : open_files g v cs fs ds -> (k < length fs)%nat -> ready g (rest_of fs cs) cs k v.
Proof.
  intros [O1 O2 O3 O4 O5] K. pose proof (ow_nodup _ _ _ O2) as Nd. constructor; auto; [clear - O3 K; lia|].
  intros c Hc. apply (skipn_disj cs (length fs) k c); auto.
Qed.

Lemma change_file g v v' cs fs ds k f' d' : geo_ok g -> data_ok g -> open_files g v cs fs ds -> (k < length fs)%nat ->
  grown g (rest_of fs cs) k v cs v' cs -> file_ok g v' (nth k cs []) f' d' ->
  open_files g v' cs (edit fs k f') (edit ds k d') /\
  (forall s o, outside g s -> ~ ours g (rest_of fs cs) s -> 0 <= o < ss g -> view v' s o = view v s o).
Proof.
  intros G A O K W F'. pose proof (files_ready g v cs fs ds k O K) as R. destruct O as [O1 O2 O3 O4 O5]. destruct W as [R1 _ Ke _].
  assert (Kc : (k < length cs)%nat) by lia. unfold rest_of in *. set (n := length fs) in *.
  assert (Lf : length (edit fs k f') = n) by (now apply edit_length). set (D := concat (skipn n cs)) in *. pose proof (ow_nodup _ _ _ O2) as Nd.
  split.
  - constructor.
    + rewrite Lf, edit_length; lia.
    + apply R1.
    + rewrite Lf. auto.
    + rewrite Lf. apply R1.
    + intros j fj dj Hf Hd. rewrite edit_error in Hf by lia. rewrite edit_error in Hd by lia.
      destruct (Nat.eqb_spec j k) as [->|Nk]; [inversion Hf; inversion Hd; subst; auto|].
      pose proof (O5 j fj dj Hf Hd) as Fj. assert (Jn : (j < n)%nat) by (apply nth_error_Some; congruence).
      destruct Fj as [H1 H2 H3 H4 H5 H6 H7 H8 H9]. constructor; auto. destruct H1 as [B1 B2 B3 B4 B5 B6]. constructor; auto.
      intros p b X Y. rewrite <- (B5 p b X Y). pose proof (B4 p b X) as Z.
      destruct (sector_in g (nth j cs []) p G A ltac:(clear - Z H5; lia)) as (c & Cc & Cs).
      assert (Jc : (j < length cs)%nat) by (clear - Jn O3; lia). pose proof (ss_pos g G) as Sp. pose proof (Z.mod_pos_bound p (ss g) ltac:(lia)) as Pm.
      assert (Os : ours g D (sector_of g (nth j cs []) p)).
      { apply (cluster_ours g D cs j v c); auto. intros y Hy. now apply (skipn_disj cs n j y). }
      rewrite <- (ours_view g D v'), <- (ours_view g D v) by (auto; apply R1). apply Ke; auto.
      * destruct (own_chain g v cs j O2 Jc) as (Ch & _). apply (cluster_out g c); auto. now apply (chain_in _ _ _ _ Ch).
      * intros y Hy Hi. pose proof (cluster_disj g _ _ _ A Hi Cs) as ->. apply (chains_disj cs Nd k j c); auto.
  - intros s o Hs Ho Hb. apply Ke; auto. intros c Hc Hi. apply Ho. apply (cluster_ours g D cs k v c); auto. apply R.
Qed.

(* --- f_forward -------------------------------------------------------------------------- *)

Lemma cluster_forward g v f v' f' : read_cluster g v f = Ok (v', f', Through) ->
  ('(v, c) <- (if fptr f =? 0 then Ok (v, sclust f) else get_fat g v (clust f)) ;;
   if c <=? 1 then Ok (v, f, Some FR_INT_ERR) else if c =? ERR then Ok (v, f, Some FR_DISK_ERR) else Ok (v, set_start f (sclust f) c, None)) = Ok (v', f', None).
Proof.
  unfold read_cluster. destruct (if fptr f =? 0 then _ else _) as [[v1 c]| |]; cbn [bind]; try discriminate.
  destruct (Z.ltb_spec c 2), (Z.leb_spec c 1); try lia; try discriminate. destruct (c =? ERR); [discriminate|]. now intros [= -> ->].
Qed.

Lemma forward_sector_ok g D cs i v f d : geo_ok g -> data_ok g -> ready g D cs i v -> let l := nth i cs [] in file_ok g v l f d -> pos d < len d ->
  exists v' f', forward_sector g v f = Ok (v', f', None) /\ grown g D i v cs v' cs /\ found g v' l f' d /\ same_mode f f' /\
    (forall c, 0 <= c < n_fatent g -> entry g v' c = entry g v c) /\ fsect f' = sector_of g l (pos d).
Proof.
  intros G A R l F P. pose proof (ss_pos g G) as Sp. pose proof (rd_idx _ _ _ _ _ R) as I.
  assert (C : exists v1 f1, (if (fptr f mod ss g =? 0) && (Z.land (fptr f / ss g) (csize g - 1) =? 0) then
       '(v, c) <- (if fptr f =? 0 then Ok (v, sclust f) else get_fat g v (clust f)) ;;
       if c <=? 1 then Ok (v, f, Some FR_INT_ERR)
       else if c =? ERR then Ok (v, f, Some FR_DISK_ERR)
       else Ok (v, set_start f (sclust f) c, None)
     else Ok (v, f, None)) = Ok (v1, f1, None) /\ grown g D i v cs v1 cs /\ found g v1 l f1 d /\ same_mode f f1 /\ fptr f1 = fptr f /\
     (forall c, 0 <= c < n_fatent g -> entry g v1 c = entry g v c)).
  { destruct (Z.eqb_spec (fptr f mod ss g) 0) as [T|T]; cbn [andb].
    - rewrite (fo_pos _ _ _ _ _ F) in T. destruct (cluster_read g D cs i v f d G A R F T P) as (v1 & E1 & W1 & F1 & EE1). fold l in E1, F1.
      exists v1. eexists. split; [|split; [exact W1|split; [exact F1|split; [split; [|split]; reflexivity|split; [reflexivity|exact EE1]]]]].
      destruct (Z.land (fptr f / ss g) (csize g - 1) =? 0); [now apply cluster_forward|]. now inversion E1.
    - exists v, f. split; [auto|]. split; [now apply grown_refl|]. rewrite (fo_pos _ _ _ _ _ F) in T. destruct (file_found g v l f d G A F T) as [F1 _].
      split; [auto|]. split; [now split|]. auto. }
  destruct C as (v1 & f1 & E1 & W1 & F1 & M1 & P1 & EE1). unfold forward_sector. cbv zeta. rewrite E1. cbn [bind]. rewrite <- P1.
  pose proof (gw_ready _ _ _ _ _ _ _ W1) as R1. destruct (sect_of_cluster g D cs i v1 f1 d G A R1 F1) as [S0 S1]. fold l in S1. rewrite S0, S1.
  pose proof (fd_range _ _ _ _ _ F1) as Rg. pose proof (fd_in _ _ _ _ _ F1) as In_. assert (Pr : 0 <= pos d < Z.of_nat (length l) * bcs g) by lia.
  destruct (Z.eqb_spec (fsect f1) (sector_of g l (pos d))) as [T|T]; cbn [negb].
  - rewrite <- T. exists v1, f1. replace (set_buf f1 (fsect f1) (fbuf f1) (fdirty f1)) with f1 by (now destruct f1). split; [auto|]. split; [auto|]. split; [auto|]. split; [auto|]. split; [auto|auto].
  - destruct (back_ok g D cs i v1 f1 d G A R1 (fd_cache _ _ _ _ _ F1)) as (v2 & E2 & W2 & C2 & EE2). fold l in C2.
    rewrite E2. set (f2 := set_buf f1 (fsect f1) (fbuf f1) false) in *. pose proof (gw_ready _ _ _ _ _ _ _ W2) as R2.
    destruct (load_ok g D cs i v2 f2 d (pos d) G A R2 C2 eq_refl Pr) as (dd & b & E3 & E4 & C3). fold l in E3, C3. rewrite E3, E4. cbn [bind].
    eexists v2, _. split; [reflexivity|]. split; [now apply (grown_trans g D i v cs v1 cs v2 cs)|].
    split; [destruct F1; constructor; auto|]. split; [exact M1|]. split; [|reflexivity].
    intros c Hc. rewrite EE2, EE1; auto.
Qed.

Lemma taken_range s ts : forall p n, 0 <= n -> 0 <= fst (taken s ts p n) <= n.
Proof.
  induction ts as [|[|a] ts IH]; intros p n N; cbn [taken]; (destruct (Z.leb_spec n 0); [cbn; lia|]); try (cbn; lia).
  set (r := Z.min a (Z.min n (s - p mod s))). destruct (Z.leb_spec r 0); [cbn; lia|].
  specialize (IH (p + r) (n - r) ltac:(lia)). destruct (taken s ts (p + r) (n - r)) as [k ok]. cbn in *. lia.
Qed.

(* The bytes w are those at the position of the file. *)
Definition carries (d : ifile) (w : list Z) : Prop := forall j b, 0 <= j < Z.of_nat (length w) -> data d (pos d + j) = Some b -> nth (Z.to_nat j) w 0 = b.

Lemma first_bytes (h : nat -> Z) r m : 0 < r <= m -> let w := firstn (Z.to_nat r) (map h (seq 0 (Z.to_nat m))) in
  length w = Z.to_nat r /\ forall j, (j < Z.to_nat r)%nat -> nth j w 0 = h j.
Proof.
  intros H w. split; [unfold w; rewrite firstn_length, map_length, seq_length; lia|]. intros j J.
  assert (X : forall (l0 : list Z), nth j (firstn (Z.to_nat r) l0) 0 = nth j l0 0).
  { clear - J. revert j J. generalize (Z.to_nat r). intros n. induction n as [|n IH]; intros j J l0; [lia|]. destruct l0; [now rewrite firstn_nil|]. destruct j; [reflexivity|]. cbn. apply IH. lia. }
  unfold w. rewrite X, (nth_indep _ 0 (h 0%nat)) by (rewrite map_length, seq_length; lia). rewrite map_nth, seq_nth by lia. reflexivity.
Qed.

Lemma carries_more d w1 w r : 0 < r -> carries d w1 -> length w1 = Z.to_nat r -> carries (at_pos d (pos d + r)) w -> carries d (w1 ++ w).
Proof.
  intros R C1 L1 Cw j b J X. rewrite app_length in J. destruct (Z_lt_dec j r) as [Lj|Lj].
  - rewrite app_nth1 by lia. apply C1; auto. lia.
  - rewrite app_nth2 by lia. replace (Z.to_nat j - length w1)%nat with (Z.to_nat (j - r)) by lia. apply Cw; [lia|]. cbn. replace (pos d + r + (j - r)) with (pos d + j) by lia. auto.
Qed.
Lemma carries_sector g v l f d w r : geo_ok g -> data_ok g -> cached g v l f d -> fsect f = sector_of g l (pos d) -> 0 < r <= ss g - pos d mod ss g -> length w = Z.to_nat r ->
  (forall j, (j < Z.to_nat r)%nat -> nth j w 0 = fbuf f (pos d mod ss g + Z.of_nat j)) -> carries d w.
Proof.
  intros G A C S1 Hr L1 N1 j b J X. pose proof (ss_pos g G) as Sp. rewrite L1 in J. rewrite N1 by lia. rewrite Z2Nat.id by lia.
  destruct (near_in (ss g) (pos d) j ltac:(lia) ltac:(lia) ltac:(lia)) as [Y1 Y2]. rewrite <- Y2.
  apply (ca_buf _ _ _ _ _ C); auto. rewrite S1, !sector_secn, Y1 by auto. auto.
Qed.

Lemma forward_loop_ok g D cs i ts : forall v f d btf out, geo_ok g -> data_ok g -> ready g D cs i v -> let l := nth i cs [] in file_ok g v l f d ->
  0 <= btf -> pos d + btf <= len d ->
  let k := fst (taken (ss g) ts (pos d) btf) in let ok := snd (taken (ss g) ts (pos d) btf) in
  exists v' f' w, forward_loop ts g v f btf out = Ok (v', f', out ++ w, if ok then FR_OK else FR_INT_ERR) /\ grown g D i v cs v' cs /\ same_mode f f' /\
    (forall c, 0 <= c < n_fatent g -> entry g v' c = entry g v c) /\ Z.of_nat (length w) = k /\ carries d w /\
    (if ok then file_ok g v' l f' (at_pos d (pos d + k)) else ferr f' = FR_INT_ERR /\ cached g v' l f' d).
Proof.
  induction ts as [|t ts IH]; intros v f d btf out G A R l F B0 B2; cbn [forward_loop taken];
    pose proof (rd_idx _ _ _ _ _ R) as I; pose proof (ss_pos g G) as Sp; pose proof (ss_max g G) as Sm; pose proof (fo_range _ _ _ _ _ F) as Rg;
    (assert (Stop : exists v' f' w, Ok (v, f, out, FR_OK) = Ok (v', f', out ++ w, FR_OK) /\ grown g D i v cs v' cs /\ same_mode f f' /\
      (forall c, 0 <= c < n_fatent g -> entry g v' c = entry g v c) /\ Z.of_nat (length w) = 0 /\ carries d w /\ file_ok g v' l f' (at_pos d (pos d + 0)));
     [exists v, f, []; rewrite app_nil_r, Z.add_0_r; (split; [auto|]); (split; [now apply grown_refl|]); (split; [now split|]); (split; [auto|]); (split; [auto|]);
      (split; [intros j b J; cbn in J; lia|]); destruct d; exact F|]).
  - destruct (btf <=? 0); exact Stop.
  - destruct (Z.leb_spec btf 0) as [Z0|Z0]; [exact Stop|]. destruct t as [|a]; [exact Stop|]. clear Stop.
    destruct (forward_sector_ok g D cs i v f d G A R F ltac:(lia)) as (v1 & f1 & E1 & W1 & F1 & M1 & EE1 & S1). fold l in F1, S1. rewrite E1. cbn [bind].
    pose proof (fd_pos _ _ _ _ _ F1) as P1. rewrite P1. pose proof (Z.mod_pos_bound (pos d) (ss g) ltac:(lia)) as Pm.
    set (m := if btf <? ss g - pos d mod ss g then btf else ss g - pos d mod ss g).
    assert (Hm : m = Z.min btf (ss g - pos d mod ss g)) by (unfold m; destruct (Z.ltb_spec btf (ss g - pos d mod ss g)); lia). clearbody m. cbv zeta. rewrite <- Hm.
    unfold bytes_at. replace ((0 <=? pos d mod ss g) && (pos d mod ss g + m <=? MAXSS)) with true by lia. cbn [bind].
    replace (if a <? m then a else m) with (Z.min a m) by (destruct (Z.ltb_spec a m); lia). set (r := Z.min a m).
    destruct (Z.leb_spec r 0) as [Zr|Zr].
    + cbn [fst snd]. exists v1, (set_err f1 FR_INT_ERR), []. rewrite app_nil_r. split; [auto|]. split; [auto|]. split; [exact M1|]. split; [auto|]. split; [auto|].
      split; [intros j b J; cbn in J; lia|]. split; [reflexivity|]. eapply cached_ext; [apply (fd_cache _ _ _ _ _ F1)|reflexivity..|]. intros p b X. split; [auto|]. exact (ca_len _ _ _ _ _ (fd_cache _ _ _ _ _ F1) p b X).
    + assert (Hr : 0 < r <= btf /\ r <= ss g - pos d mod ss g /\ r <= m) by (unfold r; lia). clearbody r.
      destruct (in_sector g (pos d) r G A ltac:(lia) ltac:(lia)) as [Q1 Q2].
      assert (F2 : file_ok g v1 l (set_pos f1 (pos d + r) (objsize f1)) (at_pos d (pos d + r))).
      { apply (found_file g v1 l f1 d _ _ r G A F1); cbn [at_pos set_pos pos len fptr objsize sclust clust ferr fsect].
        - clear - Hr. lia.
        - exact Q1.
        - apply cached_at. apply F1.
        - reflexivity.
        - reflexivity.
        - apply F1.
        - clear - Hr B2 Rg. lia.
        - apply F1.
        - reflexivity.
        - reflexivity.
        - apply F1.
        - intros X. rewrite S1, !sector_secn, Q2 by auto. auto. }
      set (w1 := firstn (Z.to_nat r) (map (fun j => fbuf f1 (pos d mod ss g + Z.of_nat j)) (seq 0 (Z.to_nat m)))).
      assert (Hrm : 0 < r <= m) by (clear - Hr; lia).
      destruct (first_bytes (fun j => fbuf f1 (pos d mod ss g + Z.of_nat j)) r m Hrm) as [L1 N1]. fold w1 in L1, N1. cbv beta in N1.
      clearbody w1.
      assert (C1 : carries d w1).
      { apply (carries_sector g v1 l f1 d w1 r); auto; [apply F1|clear - Hr; lia]. }
      specialize (IH v1 _ _ (btf - r) (out ++ w1) G A (gw_ready _ _ _ _ _ _ _ W1) F2 ltac:(clear - Hr; lia) ltac:(cbn; clear - B2; lia)). cbn [pos at_pos] in IH.
      destruct (taken (ss g) ts (pos d + r) (btf - r)) as [k ok] eqn:Tk. cbn [fst snd] in *. destruct IH as (v' & f' & w & E & W' & M' & EE' & Lw & Cw & Fw).
      exists v', f', (w1 ++ w). rewrite E, app_assoc. split; [auto|]. split; [now apply (grown_trans g D i v cs v1 cs v' cs)|].
      split; [destruct M1 as (X1 & X2 & X3), M' as (Y1 & Y2 & Y3); cbn in *; split; [|split]; congruence|].
      split; [intros c Hc; rewrite EE', EE1; auto|]. split; [rewrite app_length; clear - L1 Lw Hr; lia|]. split.
      * apply (carries_more d w1 w r); auto. 
      * destruct ok; [unfold at_pos in *; cbn in *; replace (pos d + (r + k)) with (pos d + r + k) by (clear; lia); auto|].
        destruct Fw as [Fw1 Fw2]. split; [auto|]. eapply cached_ext; [exact Fw2|reflexivity..|]. intros p b X. split; [exact X|]. exact (ca_len _ _ _ _ _ Fw2 p b X).
Qed.

Lemma files_forward g v cs fs ds k f d btf ts : geo_ok g -> data_ok g -> open_files g v cs fs ds -> nth_error fs k = Some f -> nth_error ds k = Some d -> fread f = true -> 0 <= btf ->
  let t := taken (ss g) ts (pos d) (Z.min btf (len d - pos d)) in
  exists v' f' w, f_forward ts g v f btf = Ok (v', f', w, if snd t then FR_OK else FR_INT_ERR) /\ Z.of_nat (length w) = fst t /\
    (forall j b, 0 <= j < fst t -> data d (pos d + j) = Some b -> nth (Z.to_nat j) w 0 = b) /\
    (forall c, 0 <= c < n_fatent g -> entry g v' c = entry g v c) /\
    (forall s o, outside g s -> ~ ours g (rest_of fs cs) s -> 0 <= o < ss g -> view v' s o = view v s o) /\
    (if snd t then open_files g v' cs (edit fs k f') (edit ds k (at_pos d (pos d + fst t))) else ferr f' = FR_INT_ERR /\ cached g v' (nth k cs []) f' d).
Proof.
  intros G A O Hf Hd Fr B t. assert (K : (k < length fs)%nat) by (apply nth_error_Some; congruence). pose proof (files_ready g v cs fs ds k O K) as R.
  pose proof (of_file _ _ _ _ _ O k f d Hf Hd) as F. pose proof (fo_range _ _ _ _ _ F) as Rg. pose proof (rd_idx _ _ _ _ _ R) as I.
  unfold f_forward. rewrite (fo_err _ _ _ _ _ F), Fr, (fo_pos _ _ _ _ _ F), (fo_len _ _ _ _ _ F). cbv zeta.
  replace (if len d - pos d <? btf then len d - pos d else btf) with (Z.min btf (len d - pos d)) by (destruct (Z.ltb_spec (len d - pos d) btf); lia).
  destruct (forward_loop_ok g _ cs k ts v f d (Z.min btf (len d - pos d)) [] G A R F ltac:(lia) ltac:(lia)) as (v' & f' & w & E & W & M & EE & Lw & Cw & Fw).
  fold t in E, Lw, Fw. exists v', f', w. rewrite E. split; [reflexivity|]. split; [auto|]. split; [rewrite <- Lw; exact Cw|]. split; [auto|].
  assert (Out : forall s o, outside g s -> ~ ours g (rest_of fs cs) s -> 0 <= o < ss g -> view v' s o = view v s o).
  { intros s o Hs Ho Hb. apply (gw_keeps _ _ _ _ _ _ _ W); auto. intros c Hc Hi. apply Ho. apply (cluster_ours g _ cs k v c); auto; apply R. }
  split; [auto|]. destruct (snd t); [|auto]. apply (change_file g v); auto.
Qed.

Lemma files_seek g v cs fs ds k f d tab size ofs : geo_ok g -> data_ok g -> open_files g v cs fs ds -> nth_error fs k = Some f -> nth_error ds k = Some d ->
  linkmap tab size (nth k cs []) -> 0 <= ofs ->
  exists v' f', fast_seek g v f tab size ofs = Ok (v', f', FR_OK) /\ open_files g v' cs (edit fs k f') (edit ds k (at_pos d (Z.min ofs (len d)))) /\
    (forall s o, outside g s -> ~ ours g (rest_of fs cs) s -> 0 <= o < ss g -> view v' s o = view v s o).
Proof.
  intros G A O Hf Hd Lm B. assert (K : (k < length fs)%nat) by (apply nth_error_Some; congruence). pose proof (files_ready g v cs fs ds k O K) as R.
  pose proof (of_file _ _ _ _ _ O k f d Hf Hd) as F.
  destruct (fast_seek_ok g _ cs k v f d tab size ofs G A R Lm F B) as (v' & f' & E & W & M & F'). exists v', f'. split; [auto|].
  apply (change_file g v); auto.
Qed.

Lemma files_read g v cs fs ds k f d tab size rb bl n fuel : geo_ok g -> data_ok g -> open_files g v cs fs ds -> nth_error fs k = Some f -> nth_error ds k = Some d ->
  linkmap tab size (nth k cs []) -> fread f = true -> 0 <= n -> n <= bl -> n < Z.of_nat fuel ->
  let m := Z.min n (len d - pos d) in
  exists v' f' rb', fast_read fuel tab size g v f rb bl n = Ok (v', f', rb', m, FR_OK) /\
    (forall j b, 0 <= j < m -> data d (pos d + j) = Some b -> rb' j = b) /\ (forall j, ~ 0 <= j < m -> rb' j = rb j) /\
    open_files g v' cs (edit fs k f') (edit ds k (at_pos d (pos d + m))) /\ (forall c, 0 <= c < n_fatent g -> entry g v' c = entry g v c) /\
    (forall s o, outside g s -> ~ ours g (rest_of fs cs) s -> 0 <= o < ss g -> view v' s o = view v s o).
Proof.
  intros G A O Hf Hd Lm Fr N1 N2 Fu m. assert (K : (k < length fs)%nat) by (apply nth_error_Some; congruence). pose proof (files_ready g v cs fs ds k O K) as R.
  pose proof (of_file _ _ _ _ _ O k f d Hf Hd) as F.
  destruct (fast_read_ok tab size g _ cs k v f d rb bl n fuel G A R Lm F Fr N1 N2 Fu) as (v' & f' & rb' & E & W & F' & M & EE & Fi1 & Fi2).
  fold m in E, F', Fi1, Fi2. exists v', f', rb'. split; [auto|]. split; [exact Fi1|]. split; [exact Fi2|].
  destruct (change_file g v v' cs fs ds k f' _ G A O K W F') as [X1 X2]. auto.
Qed.

Lemma files_map g v cs fs ds k f d tab size fuel : geo_ok g -> data_ok g -> open_files g v cs fs ds -> nth_error fs k = Some f -> nth_error ds k = Some d ->
  plain_end (entry g v) (nth k cs []) -> 0 < size -> tab 0 <= size -> n_fatent g <= Z.of_nat fuel ->
  exists v' tab' rs, runs_of rs (nth k cs []) /\ create_linkmap fuel g v f tab size = Ok (v', f, tab', if items rs <=? tab 0 then LDone FR_OK else LNotEnough) /\
    tab' 0 = items rs /\ (items rs <= tab 0 -> holds tab' 1 rs /\ linkmap tab' size (nth k cs []) /\ forall i, items rs <= i -> tab' i = tab i) /\
    (forall i, i < 0 \/ Z.max 1 (tab 0) <= i -> tab' i = tab i) /\
    open_files g v' cs fs ds /\ (forall c, 0 <= c < n_fatent g -> entry g v' c = entry g v c) /\ same_outside g v v'.
Proof.
  intros G A O Hf Hd Pe S0 S1 Fu. assert (K : (k < length fs)%nat) by (apply nth_error_Some; congruence). pose proof (files_ready g v cs fs ds k O K) as R.
  pose proof (of_file _ _ _ _ _ O k f d Hf Hd) as F. destruct (own_chain g v cs k (rd_own _ _ _ _ _ R) (rd_idx _ _ _ _ _ R)) as (Ch & Nd & _).
  destruct (linkmap_made g v (nth k cs []) f tab size fuel G (ow_vol _ _ _ (rd_own _ _ _ _ _ R)) Ch Nd Pe (fo_start _ _ _ _ _ F) (fo_err _ _ _ _ _ F) S0 S1 Fu)
    as (v' & tab' & rs & Ro & E & Es & If & T0 & T1 & T2).
  exists v', tab', rs. split; [auto|]. split; [auto|]. split; [auto|]. split; [|split; [auto|split; [|split; [apply Es|apply Es]]]].
  - intros L. destruct (T1 L) as [H1 H2]. split; [auto|]. split; [|auto]. exists rs. split; [auto|]. split; [auto|lia].
  - destruct If as (If1 & If2 & If3). apply (quiet_files g v); auto. rewrite If2. apply (of_own _ _ _ _ _ O).
Qed.
