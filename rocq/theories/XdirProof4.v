(* Lemmas: the entries of a new file from their making to their use. *)
From Verif Require Import Base Arr ArrLemmas LfnSpec FutfModel FutfSpec FutfProof LfnProof XdirModel XdirSpec XdirProof XdirProof2 XdirProof3.
Open Scope Z_scope.

Lemma le_8 x : 0 <= x < 2 ^ 64 ->
  x mod 256 + 256 * (x / 256 mod 256 + 256 * (x / 256 / 256 mod 256 + 256 * (x / 256 / 256 / 256 mod 256 +
    256 * (x / 256 / 256 / 256 / 256 mod 256 + 256 * (x / 256 / 256 / 256 / 256 / 256 mod 256 + 256 * (x / 256 / 256 / 256 / 256 / 256 / 256 mod 256 +
    256 * (x / 256 / 256 / 256 / 256 / 256 / 256 / 256 mod 256 + 256 * 0))))))) = x.
Proof.
  intros H. rewrite (Z.mod_small (x / 256 / 256 / 256 / 256 / 256 / 256 / 256)).
  - rewrite Z.mul_0_r, Z.add_0_r, !le_n. reflexivity.
  - rewrite !Z.div_div by lia. split; [apply Z.div_pos; lia|]. apply Z.div_lt_upper_bound; [lia|]. exact (proj2 H).
Qed.

Lemma get_ok c lo hi a t f l h0 h1 n k T : 0 <= t < 2 ^ 32 -> 0 <= n < 2 ^ 64 -> 0 <= k < 2 ^ 32 ->
  get_meta (fent c lo hi a (le4 t) ++ sent f l h0 h1 (le8 n) (le4 k) ++ T) = Ok (Meta a f k n t).
Proof.
  intros Ht Hn Hk. unfold get_meta, fent, sent, le8, le4, z4. cbn [app ld_le rd nth_error bind]. unfold rd. cbn [nth_error bind].
  rewrite le_8 by auto. rewrite !le_4 by auto. reflexivity.
Qed.

Lemma le4_length x : length (le4 x) = 4%nat. Proof. reflexivity. Qed.
Lemma le8_length x : length (le8 x) = 8%nat. Proof. reflexivity. Qed.
Lemma mod_byte x : byte_ok (x mod 256). Proof. apply Z.mod_pos_bound. lia. Qed.
Lemma le4_bytes x : Forall byte_ok (le4 x). Proof. repeat constructor; apply Z.mod_pos_bound; lia. Qed.
Lemma z4_bytes : Forall byte_ok z4. Proof. repeat constructor; lia. Qed.

Lemma ld_at b i x : ld_word b i = Ok x -> at_ b i + 256 * at_ b (S i) = x.
Proof.
  unfold ld_word, rd, at_. destruct (nth_error b i) as [u|] eqn:E; [|discriminate]. cbn [bind]. destruct (nth_error b (S i)) as [v|] eqn:F; [|discriminate].
  cbn [bind]. rewrite (nth_error_nth _ _ _ E), (nth_error_nth _ _ _ F). now intros [= <-].
Qed.

Lemma file_ok tab k buf buf2 ws a f c n t : length buf = 608%nat -> length buf2 = 608%nat -> Forall unit_ok' ws -> (1 <= length ws <= 255)%nat -> meta_in a f c n t ->
  Z.of_nat k + 2 + (Z.of_nat (length ws) + 14) / 15 <= Z.of_nat (length tab) ->
  exists b1 b2 b3 b4 tab' h s names, create_xdir buf (ws ++ [0]) = Ok b1 /\ put_meta b1 (Meta a f c n t) = Ok b2 /\ store_xdir tab k b2 = Ok (tab', b3, true) /\
    entry_ok h /\ entry_ok s /\ Forall entry_ok names /\ good h s names /\ at_ h 1 = Z.of_nat (length names) + 1 /\ Z.of_nat (length names) = (Z.of_nat (length ws) + 14) / 15 /\
    placed tab' k (h :: s :: names) /\ length tab' = length tab /\
    (forall j, (j < k \/ k + 2 + length names <= j)%nat -> nth_error tab' j = nth_error tab j) /\
    load_xdir tab' k buf2 = Ok (b4, true) /\ get_meta b4 = Ok (Meta a f c n t) /\
    file_set ws h s names /\
    forall zs, Forall unit_ok' zs -> exists r, named b4 (zs ++ [0]) = Ok r /\ (r = true <-> same_name ws zs).
Proof.
  intros L L2 U R (Ma & Mf & Mc & Mn & Mt) T. destruct (N20_length ws R) as (Nr & Nl).
  pose proof (create_ok buf ws L U R) as C. rewrite <- Nl in T.
  set (h0 := nhash ws mod 256) in *. set (h1 := nhash ws / 256 mod 256) in *.
  pose proof (meta_ok (cnt ws) (Z.of_nat (length ws)) h0 h1 (Meta a f c n t) (concat (N20 ws) ++ skipn (64 + 32 * length (N20 ws)) buf)) as P. cbn [m_attr m_flags m_clust m_size m_time] in P.
  set (s := sent f (Z.of_nat (length ws)) h0 h1 (le8 n) (le4 c)) in *.
  set (rest := skipn (64 + 32 * length (N20 ws)) buf) in *.
  assert (Ls : length s = 32%nat) by (apply sent_length; reflexivity).
  assert (Lf : forall lo hi, length (fent (cnt ws) lo hi a (le4 t)) = 32%nat) by (intros; apply fent_length; reflexivity).
  assert (Lc : forall lo hi, length (concat (fent (cnt ws) lo hi a (le4 t) :: s :: N20 ws)) = (64 + 32 * length (N20 ws))%nat).
  { intros. cbn [concat]. rewrite !app_length, Lf, Ls, N20_concat. lia. }
  assert (Ck : forall lo hi, checksum (concat (fent (cnt ws) lo hi a (le4 t) :: s :: N20 ws)) = checksum (concat (fent (cnt ws) 0 0 a (le4 t) :: s :: N20 ws))) by reflexivity.
  set (q := checksum (concat (fent (cnt ws) 0 0 a (le4 t) :: s :: N20 ws))) in *.
  assert (Q : 0 <= q < 65536) by (apply fold_range; lia).
  set (h := fent (cnt ws) (q mod 256) (q / 256 mod 256) a (le4 t)).
  assert (Sm : xdir_sum (fent (cnt ws) 0 0 a (le4 t) ++ s ++ concat (N20 ws) ++ rest) = Ok q).
  { pose proof (sum_ok (concat (fent (cnt ws) 0 0 a (le4 t) :: s :: N20 ws)) rest) as X. rewrite Lc in X. cbn [concat] in X. rewrite <- !app_assoc in X.
    apply X; [lia|]. rewrite at_app by (rewrite Lf; lia). change (at_ (fent (cnt ws) 0 0 a (le4 t)) 1) with (cnt ws). unfold cnt. lia. }
  assert (St : st_word (fent (cnt ws) 0 0 a (le4 t) ++ s ++ concat (N20 ws) ++ rest) 2 q = Ok (h ++ s ++ concat (N20 ws) ++ rest)).
  { unfold st_word. rewrite wr_left by (rewrite Lf; lia). cbn [bind]. rewrite wr_left by (rewrite set_at_length, Lf; lia). reflexivity. }
  assert (Es : Forall (fun e => length e = 32%nat) (h :: s :: N20 ws)).
  { constructor; [apply Lf|]. constructor; [exact Ls|]. eapply Forall_impl; [|apply naments_ok]. intros ? (? & _); auto. }
  assert (Eh : entry_ok h).
  { split; [apply Lf|]. unfold h, fent, cnt. rewrite !Forall_app. repeat split; auto using z4_bytes, le4_bytes.
    repeat constructor; try (unfold byte_ok; lia); try apply mod_byte; apply Ma. }
  assert (Ee : entry_ok s).
  { split; [exact Ls|]. unfold s, sent, le8. rewrite !Forall_app. repeat split; auto using z4_bytes, le4_bytes.
    repeat constructor; try (unfold byte_ok; lia); try apply mod_byte; apply Mf. }
  assert (En : Forall entry_ok (N20 ws)) by apply naments_ok.
  assert (Ac : at_ h 1 = Z.of_nat (length (N20 ws)) + 1) by reflexivity.
  assert (Gd : good h s (N20 ws)).
  { constructor; auto.
    - apply naments_type.
    - change (at_ s 3) with (Z.of_nat (length ws)). lia.
    - unfold h at 1. rewrite Ck. change (at_ h 2) with (q mod 256). change (at_ h 3) with (q / 256 mod 256).
      rewrite (Z.mod_small (q / 256)) by (clear - Q; Z.to_euclidean_division_equations; lia). now rewrite le_n. }
  assert (Tb : exists pre old post, tab = pre ++ old ++ post /\ length pre = k /\ length old = length (h :: s :: N20 ws)).
  { exists (firstn k tab), (firstn (length (h :: s :: N20 ws)) (skipn k tab)), (skipn (length (h :: s :: N20 ws)) (skipn k tab)).
    rewrite !firstn_skipn. split; auto. rewrite !firstn_length, skipn_length. cbn [length]. lia. }
  destruct Tb as (pre & old & post & -> & Lk & Lo).
  assert (Pl : placed (pre ++ (h :: s :: N20 ws) ++ post) k (h :: s :: N20 ws)) by (exists pre, post; auto).
  destruct (load_ok _ k h s (N20 ws) buf2 Eh Ee En Pl L2 Ac) as (b4 & r & Ld & G1 & G2).
  assert (r = true) by (apply G1; auto). subst r.
  rewrite (G2 eq_refl) in Ld. cbn [concat] in Ld. rewrite <- !app_assoc in Ld.
  eexists _, _, (h ++ s ++ concat (N20 ws) ++ rest), _, (pre ++ (h :: s :: N20 ws) ++ post), h, s, (N20 ws).
  split; [exact C|]. split; [exact P|].
  split.
  { unfold store_xdir. rewrite Sm. cbn [bind]. rewrite St. cbn [bind]. rewrite rd_at by (rewrite app_length; unfold h; rewrite Lf; lia). rewrite at_app by (unfold h; rewrite Lf; lia). cbn [bind].
    rewrite Ac. replace (Z.to_nat (Z.of_nat (length (N20 ws)) + 1 + 1)) with (length (h :: s :: N20 ws)) by (cbn [length]; lia).
    pose proof (store_run (h :: s :: N20 ws) pre old post rest Es Lo) as X. cbn [concat] in X. rewrite <- !app_assoc in X. rewrite Lk in X. rewrite X. reflexivity. }
  repeat (split; [assumption|]). split; [rewrite !app_length, Lo; reflexivity|]. split.
  { intros j [J|J].
    - rewrite !nth_error_app1 by lia. reflexivity.
    - rewrite !(nth_error_app2 pre) by lia. rewrite !nth_error_app2 by (cbn [length] in *; lia). rewrite Lo. reflexivity. }
  split; [exact Ld|]. split; [apply get_ok; auto|]. split.
  { constructor; auto.
    - pose proof (hash_range ws) as Hr. change (h0 + 256 * h1 = nhash ws). unfold h0, h1. rewrite (Z.mod_small (nhash ws / 256)) by (clear - Hr; Z.to_euclidean_division_equations; lia). now rewrite le_n.
    - intros j J i. pose proof (unit_nth 20 [] ws [] j ltac:(lia) J U) as X. rewrite app_nil_r in X. exact (ld_at _ _ _ X). }
  intros zs Uz. unfold named. rewrite hash_ok by auto. cbn [bind].
  assert (Hw : forall X, ld_word (h ++ s ++ X) 36 = Ok (nhash ws)).
  { intros X. pose proof (hash_range ws) as Hr. change (Ok (h0 + 256 * h1) = Ok (nhash ws)). unfold h0, h1. rewrite (Z.mod_small (nhash ws / 256)) by (clear - Hr; Z.to_euclidean_division_equations; lia). now rewrite le_n. }
  rewrite Hw. cbn [bind]. destruct (Z.eqb_spec (nhash ws) (nhash zs)) as [E|E]; cbn [negb].
  2:{ eexists; split; [reflexivity|]. split; [discriminate|]. intros X. apply hash_same in X. contradiction. }
  assert (Hl : forall X, rd (h ++ s ++ X) 35 = Ok (Z.of_nat (length ws))) by reflexivity.
  rewrite Hl. cbn [bind]. rewrite Nat2Z.id.
  assert (Lhs : length (h ++ s) = 64%nat) by (rewrite app_length; unfold h; rewrite Lf, Ls; auto).
  apply (same_run _ ws) with (nc := length ws) (j := 0%nat); auto.
  intros j J. pose proof (unit_nth 20 (h ++ s) ws (skipn (length (h ++ s ++ concat (N20 ws))) buf2) j ltac:(lia) J U) as X. rewrite Lhs, <- app_assoc in X. exact X.
Qed.

(* One byte of a stored set is changed. *)
Lemma damaged tab k h s names buf h' s' names' tab' p v : entry_ok h -> entry_ok s -> Forall entry_ok names -> good h s names -> at_ h 1 = Z.of_nat (length names) + 1 ->
  entry_ok h' -> entry_ok s' -> Forall entry_ok names' -> length names' = length names ->
  placed tab k (h :: s :: names) -> placed tab' k (h' :: s' :: names') -> length buf = 608%nat ->
  (p < length (concat (h :: s :: names)))%nat -> p <> 1%nat -> byte_ok v -> v <> at_ (concat (h :: s :: names)) p ->
  concat (h' :: s' :: names') = set_at (concat (h :: s :: names)) p v ->
  (exists b, load_xdir tab k buf = Ok (b, true)) /\ (exists b, load_xdir tab' k buf = Ok (b, false)).
Proof.
  intros Eh Es En G A Eh' Es' En' Ln P P' L Hp H1 V N E. split.
  - destruct (load_ok tab k h s names buf) as (b & r & X & Y & _); auto. exists b. rewrite X. do 2 f_equal. apply Y. auto.
  - destruct (damage h s names h' s' names' p v) as (B & A'); auto.
    destruct (load_ok tab' k h' s' names' buf) as (b & r & X & Y & _); auto. { rewrite A', Ln. auto. }
    exists b. rewrite X. destruct r; auto. destruct B. apply Y. auto.
Qed.
