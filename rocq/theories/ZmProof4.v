(* Proofs about ZmModel: headers sent, constructed senders, counterexamples. *)
From Verif Require Import Base BaseLemmas Arr ArrLemmas Finite CrcModel CrcSpec CrcProof CrcProof2 ZmModel ZmSpec ZmProof ZmProof2 ZmProof3.
Open Scope Z_scope.

(* --- sending --- *)

Lemma hdr_crc_bytes h : Forall byte h -> is_crc false h [WMSB (hdr_crc h); WLSB (hdr_crc h)] /\ byte (WMSB (hdr_crc h)) /\ byte (WLSB (hdr_crc h)).
Proof.
  intros H. rewrite hdr_crc_eq. destruct (crc16_rz h H) as [_ R]. set (c := zm_calc_data_crc h) in *.
  assert (A : WMSB c = c / 256).
  { unfold WMSB. change 65280 with (Z.shiftl (Z.ones 8) 8). apply Z.bits_inj'. intros n Hn.
    rewrite Z.shiftr_spec, Z.land_spec, Z.shiftl_spec by lia. replace (n + 8 - 8) with n by lia.
    replace (c / 256) with (Z.shiftr c 8) by (rewrite Z.shiftr_div_pow2 by lia; reflexivity). rewrite Z.shiftr_spec by lia.
    rewrite Z.testbit_ones_nonneg by lia. destruct (n <? 8) eqn:E; [apply andb_true_r|]. rewrite andb_false_r. symmetry.
    destruct (Z.eq_dec c 0) as [->|]; [apply Z.bits_0|]. apply Z.bits_above_log2; [lia|].
    apply Z.lt_le_trans with 16; [|lia]. apply Z.log2_lt_pow2; [lia|]. change (2 ^ 16) with 65536. lia. }
  assert (B : WLSB c = c mod 256) by (unfold WLSB; change 255 with (Z.ones 8); rewrite Z.land_ones by lia; reflexivity).
  assert (Ha : byte (WMSB c)) by (unfold byte; lia). assert (Hb : byte (WLSB c)) by (unfold byte; lia).
  split; [|auto]. apply crc16_cks; auto. unfold BTOW. rewrite lor_add by (unfold byte in *; change (2 ^ 8) with 256; lia).
  change (2 ^ 8) with 256. fold c. lia.
Qed.

Lemma send_sz_app s tl : ~ In 0 s -> zm_send_sz (s ++ 0 :: tl) = Ok s.
Proof.
  induction s as [|c s IH]; intros N; [reflexivity|]. cbn [app zm_send_sz].
  replace (c =? 0) with false by (assert (c <> 0) by (intros ->; apply N; left; auto); lia).
  rewrite IH; [reflexivity|]. intros H. apply N. right. auto.
Qed.

Lemma to_hex_text h7 : Forall byte h7 -> zm_to_hex_header h7 = 66 :: flat_map hexdigits h7 ++ [13; 138].
Proof.
  intros H. unfold zm_to_hex_header. cbn [app]. f_equal. f_equal.
  induction H as [|b t Hb Ht IH]; [reflexivity|]. cbn [flat_map]. rewrite IH. destruct (hexdigits_ok b Hb) as [-> _]. reflexivity.
Qed.

Lemma hexdigits_nz b : byte b -> ~ In 0 (hexdigits b).
Proof. unfold byte, hexdigits. cbn [map In]. intros H [E|[E|[]]]; [destruct (b / 16 <? 10) eqn:Q|destruct (b mod 16 <? 10) eqn:Q]; lia. Qed.

Lemma sent_text h : Forall byte h ->
  zm_to_hex_header (zm_calc_hdr_crc h) = 66 :: flat_map hexdigits (zm_calc_hdr_crc h) ++ [13; 138] /\
  ~ In 0 (zm_to_hex_header (zm_calc_hdr_crc h)).
Proof.
  intros H. destruct (hdr_crc_bytes h H) as (C & A & B).
  assert (F : Forall byte (zm_calc_hdr_crc h)) by (apply Forall_app; auto).
  rewrite to_hex_text by auto. split; [reflexivity|].
  cbn [In]. intros [E|E]; [discriminate|]. apply in_app_or in E. destruct E as [E|[E|[E|[]]]]; try discriminate.
  apply in_flat_map in E. destruct E as (x & X & E). rewrite Forall_forall in F. apply (hexdigits_nz x); auto.
Qed.

Lemma send_ok h tl : length h = 5%nat -> Forall byte h ->
  exists bs, zm_send_hex_hdr h (0 :: tl) = Ok (bs ++ [17]) /\ header h false bs.
Proof.
  intros L H. destruct (sent_text h H) as [E N]. destruct (hdr_crc_bytes h H) as (C & A & B).
  unfold zm_send_hex_hdr. rewrite send_sz_app by auto. cbn [bind].
  exists ([42; 42; 24] ++ zm_to_hex_header (zm_calc_hdr_crc h)). split; [rewrite <- app_assoc; reflexivity|].
  exists [WMSB (hdr_crc h); WLSB (hdr_crc h)]. split; [auto|].
  split; [auto|]. split; [auto|]. split; [reflexivity|]. split; [auto|].
  exists [42; 42], (zm_to_hex_header (zm_calc_hdr_crc h)).
  split; [repeat constructor; discriminate|]. split; [cbn; lia|]. split; [|reflexivity].
  rewrite E. apply text_hex. cbn. tauto.
Qed.

(* The string is not terminated inside its buffer. *)
Lemma send_overread h tl : Forall byte h -> zm_send_hex_hdr h [] = Ub /\
  forall c, c <> 0 -> zm_send_hex_hdr h (c :: 0 :: tl) = Ok ([42; 42; 24] ++ zm_to_hex_header (zm_calc_hdr_crc h) ++ [c; 17]).
Proof.
  intros H. destruct (sent_text h H) as [_ N]. unfold zm_send_hex_hdr. split.
  - rewrite app_nil_r. generalize (zm_to_hex_header (zm_calc_hdr_crc h)) N. clear. intros s N.
    assert (zm_send_sz s = Ub) as ->; [|reflexivity].
    induction s as [|c s IH]; [reflexivity|]. cbn [zm_send_sz].
    replace (c =? 0) with false by (assert (c <> 0) by (intros ->; apply N; left; auto); lia).
    rewrite IH; [reflexivity|]. intros X. apply N. right. auto.
  - intros c Hc.
    replace (zm_to_hex_header (zm_calc_hdr_crc h) ++ c :: 0 :: tl) with ((zm_to_hex_header (zm_calc_hdr_crc h) ++ [c]) ++ 0 :: tl) by (rewrite <- app_assoc; reflexivity).
    rewrite send_sz_app; [cbn [bind]; rewrite <- !app_assoc; reflexivity|].
    intros X. apply in_app_or in X. destruct X as [X|[X|[]]]; auto.
Qed.

(* --- a sender --- *)

Definition cks (w : bool) (d : list Z) : list Z :=
  if w then le32 (zm_calc_data_crc32 d) else [zm_calc_data_crc d / 256; zm_calc_data_crc d mod 256].
Definition mk_block (w : bool) (d : list Z) (k : Z) : list Z := flat_map usual d ++ [24; k] ++ flat_map usual (cks w (d ++ [k])).
Definition mk_hdr (w : bool) (h : list Z) : list Z := [42; 24; if w then 67 else 65] ++ flat_map usual (h ++ cks w h).
Definition mk_hex (h : list Z) : list Z := [42; 42; 24; 66] ++ flat_map hexdigits (h ++ cks false h) ++ [13; 138].

Lemma cks_ok w d : Forall byte d -> is_crc w d (cks w d) /\ Forall byte (cks w d) /\ length (cks w d) = cks_len w.
Proof.
  intros H. unfold cks. destruct w.
  - destruct (crc32_rz d H) as [_ R]. set (c := zm_calc_data_crc32 d) in *. unfold le32.
    assert (B : byte (c mod 256) /\ byte (c / 256 mod 256) /\ byte (c / 65536 mod 256) /\ byte (c / 16777216 mod 256)) by (unfold byte; lia).
    destruct B as (B1 & B2 & B3 & B4). split; [|split; [repeat (constructor; auto)|reflexivity]].
    apply crc32_cks; auto. rewrite btodw_val by auto. fold c. lia.
  - destruct (crc16_rz d H) as [_ R]. set (c := zm_calc_data_crc d) in *.
    assert (B1 : byte (c / 256)) by (unfold byte; lia). assert (B2 : byte (c mod 256)) by (unfold byte; lia).
    split; [|split; [repeat (constructor; auto)|reflexivity]].
    apply crc16_cks; auto. unfold BTOW. rewrite lor_add by (unfold byte in *; change (2 ^ 8) with 256; lia).
    change (2 ^ 8) with 256. fold c. lia.
Qed.

Lemma mk_block_ok w d k : Forall byte d -> 104 <= k <= 107 -> block w d k (mk_block w d k).
Proof.
  intros H K. assert (F : Forall byte (d ++ [k])) by (apply Forall_app; split; auto; constructor; auto; unfold byte; lia).
  destruct (cks_ok w _ F) as (C & B & L). exists (cks w (d ++ [k])). split; auto. split; auto. split; auto. split; auto.
  exists (flat_map usual d), [24; k], (flat_map usual (cks w (d ++ [k]))). repeat split; try apply usual_list; auto. apply (sym_mark 0); auto.
Qed.

Lemma mk_hdr_ok w h : length h = 5%nat -> Forall byte h -> header h w (mk_hdr w h).
Proof.
  intros L H. destruct (cks_ok w h H) as (C & B & N). exists (cks w h). split; auto. split; auto. split; auto. split; auto. split; auto.
  exists [42], ((if w then 67 else 65) :: flat_map usual (h ++ cks w h)). split; [repeat constructor; discriminate|]. split; [cbn; lia|]. split; [|reflexivity].
  assert (E : enc (h ++ cks w h) (flat_map usual (h ++ cks w h))) by (apply usual_list, Forall_app; auto).
  destruct w; [apply text_bin32|apply text_bin16]; auto.
Qed.

Lemma mk_hex_ok h : length h = 5%nat -> Forall byte h -> header h false (mk_hex h).
Proof.
  intros L H. destruct (cks_ok false h H) as (C & B & N). exists (cks false h). split; auto. split; auto. split; auto. split; auto. split; auto.
  exists [42; 42], (66 :: flat_map hexdigits (h ++ cks false h) ++ [13; 138]). split; [repeat constructor; discriminate|]. split; [cbn; lia|]. split; [|reflexivity].
  apply text_hex. cbn. tauto.
Qed.

Definition mk_blocks (w : bool) (l : list (list Z * bool)) : list Z :=
  flat_map (fun p => mk_block w (fst p) (if snd p : bool then 106 else 105)) l.
Definition mk_frame (w : bool) (f : frame) : list Z :=
  match f with
  | Ask => mk_hex [0; 0; 0; 0; 0]
  | File n i => mk_hdr w [4; 0; 0; 0; 0] ++ mk_block w (n ++ 0 :: i) 107
  | Data l (d, a) => mk_hdr w [10; 0; 0; 0; 0] ++ mk_blocks w l ++ mk_block w d (if a : bool then 107 else 104)
  end.

Definition frame_fits (f : frame) : Prop :=
  match f with
  | Ask => True
  | File n i => Forall byte n /\ ~ In 0 n /\ Forall byte i /\ (length n + length i <= 2046)%nat
  | Data l d => Forall (fun p => Forall byte (fst p) /\ (length (fst p) <= 2047)%nat) (l ++ [d])
  end.

Lemma mk_frame_ok w f : frame_fits f -> frame_bytes f (mk_frame w f).
Proof.
  intros Hf.
  assert (Z5 : forall t, byte t -> Forall byte [t; 0; 0; 0; 0]) by (intros t Ht; repeat constructor; auto; try discriminate; apply Ht).
  destruct f as [|n i|l [d a]]; cbn [frame_fits mk_frame] in *.
  - apply (bytes_ask 0 [0; 0; 0; 0] false); auto. apply mk_hex_ok; [reflexivity|apply Z5; unfold byte; lia].
  - destruct Hf as (A & B & C & D). apply (bytes_file [0; 0; 0; 0] w _ n i 107); auto; [apply mk_hdr_ok; [reflexivity|apply Z5; unfold byte; lia]|].
    apply mk_block_ok; [|lia]. apply Forall_app. split; auto. constructor; auto. unfold byte. lia.
  - apply Forall_app in Hf. destruct Hf as [Hl Hd]. apply Forall_inv in Hd. cbn [fst] in Hd.
    apply (bytes_data [0; 0; 0; 0] w); [apply mk_hdr_ok; [reflexivity|apply Z5; unfold byte; lia]| |apply Hd|apply mk_block_ok; [apply Hd|destruct a; lia]].
    induction Hl as [|[x b] l [X Y] _ IH]; [constructor|]. cbn [mk_blocks flat_map fst snd] in *. constructor; auto. apply mk_block_ok; auto. destruct b; lia.
Qed.

Lemma mk_frames_ok w fs : Forall frame_fits fs -> frames_bytes fs (flat_map (mk_frame w) fs).
Proof. induction 1 as [|f fs Hf _ IH]; [constructor|]. cbn [flat_map]. constructor; auto. apply mk_frame_ok. auto. Qed.

Lemma file_a_fits : frame_fits (File [97] []).
Proof. split; [repeat constructor; discriminate|]. split; [cbn; lia|]. split; [constructor|cbn [length]; lia]. Qed.

(* --- counterexamples --- *)

Definition junk0 : list Z := repeat 0 2048.

Lemma two_files_fit : Forall frame_fits two_files /\ data_after_file false two_files.
Proof.
  assert (H : Forall byte hello) by (repeat constructor; discriminate).
  assert (F : forall c, byte c -> c <> 0 -> frame_fits (File [c] [])).
  { intros c Hc Nc. split; [auto|]. split; [cbn; lia|]. split; [auto|cbn [length]; lia]. }
  assert (D : frame_fits (Data [] (hello, false))).
  { constructor; [|constructor]. split; [auto|cbn [fst hello length]; lia]. }
  split; [|cbn; auto]. unfold two_files.
  apply Forall_cons; [exact I|]. apply Forall_cons; [apply F; unfold byte; lia|]. apply Forall_cons; [exact D|].
  apply Forall_cons; [exact I|]. apply Forall_cons; [apply F; unfold byte; lia|]. apply Forall_cons; [exact D|].
  apply Forall_cons; [exact I|constructor].
Qed.

(* A second file: positioned where the first one ended, which is never closed. *)
Lemma second_file w : exists evs,
  rz_main false (fun _ => true) junk0 [0] 1000 (flat_map (mk_frame w) two_files ++ mk_hdr w [8; 0; 0; 0; 0]) = Ok evs /\
  map act evs = [Header [1; 0; 0; 0; 34]; OpenFile [97]; Header [9; 0; 0; 0; 0]; Put hello; Header [1; 0; 0; 0; 34];
                 OpenFile [98]; Header [9; 2; 0; 0; 0]; Put hello; Header [1; 0; 0; 0; 34]; Header [8; 0; 0; 0; 0]; CloseFile].
Proof.
  destruct two_files_fit as [A B].
  destruct (session (fun _ => true) junk0 [0] 1000 two_files _ [0; 0; 0; 0] w (mk_hdr w [8; 0; 0; 0; 0]) [] (mk_frames_ok w two_files A)) as (evs & E & F); auto.
  - apply mk_hdr_ok; [reflexivity|]. repeat constructor; discriminate.
  - cbn. lia.
  - rewrite app_nil_r in E. exists evs. split; [exact E|]. rewrite F. reflexivity.
Qed.

(* The position in a ZDATA header is not looked at: data for offset 100 goes to
   offset 0. *)
Lemma position_ignored : forall w p, length p = 4%nat -> Forall byte p -> exists evs,
  rz_main false (fun _ => true) junk0 [0] 1000
    (mk_frame w (File [97] []) ++ mk_hdr w (10 :: p) ++ mk_block w hello 104 ++ mk_hdr w [8; 0; 0; 0; 0]) = Ok evs /\
  map act evs = [OpenFile [97]; Header [9; 0; 0; 0; 0]; Put hello; Header [8; 0; 0; 0; 0]; CloseFile].
Proof.
  intros w p Lp Hp.
  assert (H : Forall byte hello) by (repeat constructor; discriminate).
  assert (FS : frames_bytes [File [97] []; Data [] (hello, false)]
     (mk_frame w (File [97] []) ++ (mk_hdr w (10 :: p) ++ [] ++ mk_block w hello 104) ++ [])).
  { constructor; [|constructor; [|constructor]].
    - apply mk_frame_ok, file_a_fits.
    - apply (bytes_data p w _ [] hello false [] _); [apply mk_hdr_ok; [cbn; lia|constructor; auto; unfold byte; lia]|constructor|cbn; lia|apply mk_block_ok; [auto|lia]]. }
  destruct (session (fun _ => true) junk0 [0] 1000 _ _ [0; 0; 0; 0] w (mk_hdr w [8; 0; 0; 0; 0]) [] FS) as (evs & E & F); auto.
  - apply mk_hdr_ok; [reflexivity|]. repeat constructor; discriminate.
  - cbn. auto.
  - cbn. lia.
  - exists evs. split; [|rewrite F; reflexivity]. rewrite <- E. f_equal. rewrite !app_nil_r, <- !app_assoc. reflexivity.
Qed.

(* A ZFILE block without a NUL: the name runs on into what the buffer held
   before, and past its end. *)
Lemma cstring_nz n : ~ In 0 n -> cstring n = Ub /\ forall tl, cstring (n ++ 0 :: tl) = Ok n.
Proof.
  induction n as [|c n IH]; intros N; [split; reflexivity|]. cbn [app cstring].
  replace (c =? 0) with false by (assert (c <> 0) by (intros ->; apply N; left; auto); lia).
  destruct IH as [A B]; [intros H; apply N; right; auto|]. rewrite A. split; [reflexivity|]. intros tl. rewrite B. reflexivity.
Qed.

Lemma rz_nil n sg open_ok after s : rz (S n) sg open_ok after false s [] = Ok [].
Proof. reflexivity. Qed.

Lemma name_overread w j after : j <> 0 ->
  rz_main false (fun _ => true) (repeat j 2048) after 1000 (mk_hdr w [4; 0; 0; 0; 0] ++ mk_block w [97] 107) =
  n <- cstring (97 :: 107 :: repeat j 2046 ++ after) ;; Ok [Open n; Send [9; 0; 0; 0; 0]].
Proof.
  intros Hj. unfold rz_main. set (inp := mk_hdr w [4; 0; 0; 0; 0] ++ mk_block w [97] 107).
  assert (H : header [4; 0; 0; 0; 0] w (mk_hdr w [4; 0; 0; 0; 0])) by (apply mk_hdr_ok; [reflexivity|repeat constructor; discriminate]).
  assert (B : block w [97] 107 (mk_block w [97] 107)) by (apply mk_block_ok; [repeat constructor; discriminate|lia]).
  destruct (length inp) as [|n] eqn:L.
  { apply header_nonempty in H. unfold inp in L. rewrite app_length in L. lia. }
  remember (S n) as f eqn:Ef. cbn [rz]. cbv zeta. unfold inp at 2. rewrite (header_ok _ _ _ (mk_block w [97] 107) _ H). cbn [bind].
  change (OK =? CANCELLED) with false. change (OK =? OK) with true. cbv iota. cbn [nth].
  change ((4 =? ZRQINIT) || (4 =? ZEOF)) with false. change (4 =? ZFIN) with false. change (4 =? ZFILE) with true. cbv iota.
  cbn [r_open r_buf r_in32 r_size r_space].
  pose proof (block_ok [97] 107 w (mk_block w [97] 107) [] (repeat j 2048) DATA_BUF_LEN B) as E. rewrite app_nil_r in E. rewrite E by (rewrite ?repeat_length; unfold DATA_BUF_LEN; cbn [length]; lia).
  cbn [bind]. change (Z.lor FIN 107 =? CANCELLED) with false. change (is_error (Z.lor FIN 107)) with false. cbv iota.
  cbn [app length]. replace (skipn 2 (repeat j 2048)) with (repeat j 2046) by reflexivity.
  destruct (cstring (97 :: 107 :: repeat j 2046 ++ after)) as [nm| |]; cbn [bind]; try reflexivity.
  subst f. rewrite rz_nil. reflexivity.
Qed.

Lemma name_junk : forall w, exists inp, (exists cs, inp = mk_hdr w [4; 0; 0; 0; 0] ++ cs /\ block w [97] 107 cs) /\
  rz_main false (fun _ => true) (repeat 66 2048) [] 1000 inp = Ub /\
  rz_main false (fun _ => true) (repeat 66 2048) [0] 1000 inp = Ok [Open (97 :: 107 :: repeat 66 2046); Send [9; 0; 0; 0; 0]] /\
  rz_main false (fun _ => true) (repeat 67 2048) [0] 1000 inp = Ok [Open (97 :: 107 :: repeat 67 2046); Send [9; 0; 0; 0; 0]].
Proof.
  intros w. exists (mk_hdr w [4; 0; 0; 0; 0] ++ mk_block w [97] 107).
  assert (N : forall j, j <> 0 -> ~ In 0 (97 :: 107 :: repeat j 2046)).
  { intros j Hj [E|[E|E]]; try discriminate. apply repeat_spec in E. congruence. }
  split; [eexists; split; [reflexivity|apply mk_block_ok; [repeat constructor; discriminate|lia]]|].
  rewrite !name_overread by lia.
  destruct (cstring_nz _ (N 66 ltac:(lia))) as [A B]. destruct (cstring_nz _ (N 67 ltac:(lia))) as [_ D].
  rewrite app_nil_r, A. split; [reflexivity|].
  specialize (B []). specialize (D []). cbn [app] in B, D. rewrite B, D. split; reflexivity.
Qed.

(* --- a full buffer --- *)

Lemma recv_full sg n : forall data e r pre gap, sg = false -> enc data e -> length data = n -> (n <= length gap)%nat ->
  recv_data_block sg n (pre ++ gap) (length pre) (e ++ r) = Ok (Some (OUT_OF_SPACE, pre ++ data ++ skipn n gap, (length pre + n)%nat, r)).
Proof.
  unfold enc. induction n as [|n IH]; intros data e r pre gap -> He Hn Hg.
  - destruct data; [|discriminate]. inversion He; subst. cbn [recv_data_block app skipn]. rewrite Nat.add_0_r. reflexivity.
  - destruct data as [|c data]; [discriminate|]. destruct gap as [|g gap]; [cbn in Hg; lia|]. cbn [map] in He.
    inversion He as [|v vs bs cs Hv Hvs]; subst. rewrite <- app_assoc. cbn [recv_data_block]. rewrite (read_sym _ _ _ Hv).
    destruct (code_ok (Byte c) (sym_is_ok _ _ Hv)) as (A & B & C & D). rewrite A, B, D. cbn [loose]. rewrite wr_app. cbn [bind].
    replace (pre ++ c :: gap) with ((pre ++ [c]) ++ gap) by (rewrite <- app_assoc; reflexivity).
    replace (S (length pre)) with (length (pre ++ [c])) by (rewrite app_length; cbn; lia).
    rewrite (IH data cs r) by (auto; cbn in *; lia). rewrite app_length, <- !app_assoc. cbn [app length skipn].
    do 4 f_equal. lia.
Qed.

Lemma block_full w data e r buf : enc data e -> (length data <= length buf)%nat ->
  zm_read_data_block false w buf (length data) (e ++ r) = Ok (Some (OUT_OF_SPACE, data ++ skipn (length data) buf, length data, r)).
Proof.
  intros He Hl. unfold zm_read_data_block.
  pose proof (recv_full false (length data) data e r [] buf eq_refl He eq_refl Hl) as E. cbn [app length] in E. rewrite E. reflexivity.
Qed.

(* --- char signed --- *)

(* Any high byte, and so the last byte of every hexadecimal header, is an error. *)
Lemma signed_recv c : 128 <= c < 256 -> is_error (recv true c) = true.
Proof.
  intros H. unfold recv. replace (128 <=? c) with true by lia. cbn [andb].
  pose proof (by8 (fun c => implb (128 <=? c) (is_error (c + 65280))) eq_refl c) as Q. cbv beta in Q.
  replace (128 <=? c) with true in Q by lia. apply Q. unfold byte. lia.
Qed.

Lemma signed_block w c k max buf r : 128 <= c < 256 -> Z.land c 127 <> 24 -> Z.land c 127 <> 16 -> Z.land c 127 <> 17 -> Z.land c 127 <> 19 ->
  (1 <= max)%nat -> exists e r', zm_read_data_block true w buf max (mk_block w [c] k ++ r) = Ok (Some (e, buf, 0%nat, r')) /\ is_error e = true.
Proof.
  intros Hc N1 N2 N3 N4 Hm. unfold mk_block. cbn [flat_map]. unfold usual at 1. cbn [existsb].
  rewrite (proj2 (Z.eqb_neq _ _) N1), (proj2 (Z.eqb_neq _ _) N2), (proj2 (Z.eqb_neq _ _) N3), (proj2 (Z.eqb_neq _ _) N4). cbn [orb app].
  unfold zm_read_data_block. destruct max as [|max]; [lia|]. cbn [recv_data_block read_escaped].
  pose proof (signed_recv c Hc) as E. rewrite E, orb_true_r. rewrite E. cbn [bind]. rewrite E. eauto.
Qed.

Lemma hex_all : (forall b, byte b -> zm_byte_to_hex b = hexdigits b /\ zm_hex_to_byte (nth 0 (hexdigits b) 0) (nth 1 (hexdigits b) 0) = b) /\
  (forall c1 c2, byte c1 -> byte c2 -> (exists b, byte b /\ [c1; c2] = hexdigits b /\ zm_hex_to_byte c1 c2 = b) \/
     ((forall b, byte b -> [c1; c2] <> hexdigits b) /\ zm_hex_to_byte c1 c2 = BAD_DIGIT)).
Proof.
  split; [intros b Hb; destruct (hexdigits_ok b Hb) as (A & _ & B); auto|].
  intros c1 c2 H1 H2.
  assert (D : (exists b, byte b /\ [c1; c2] = hexdigits b) \/ zm_hex_to_byte c1 c2 = BAD_DIGIT).
  { unfold zm_hex_to_byte. destruct (ctl c1 H1) as (_ & _ & -> & _). destruct (ctl c2 H2) as (_ & _ & -> & _).
    destruct (hex_digit_only c1 H1) as [-> | [R1 E1]]; [right; reflexivity|].
    destruct (hex_digit_only c2 H2) as [-> | [R2 E2]]; [right; rewrite orb_true_r; reflexivity|].
    left. exists (zm_hex_to_nybble c1 * 16 + zm_hex_to_nybble c2). split; [unfold byte; lia|].
    unfold hexdigits. cbn [map].
    replace ((zm_hex_to_nybble c1 * 16 + zm_hex_to_nybble c2) / 16) with (zm_hex_to_nybble c1) by lia.
    replace ((zm_hex_to_nybble c1 * 16 + zm_hex_to_nybble c2) mod 16) with (zm_hex_to_nybble c2) by lia.
    assert (X : forall n, 0 <= n < 16 -> zm_nybble_to_hex n = if n <? 10 then 48 + n else 97 + (n - 10)).
    { intros n Hn. unfold zm_nybble_to_hex. destruct (0 <=? n) eqn:Q1, (n <=? 9) eqn:Q2, (n <? 10) eqn:Q3, (10 <=? n) eqn:Q4, (n <=? 15) eqn:Q5; cbn [andb]; lia. }
    rewrite <- !X by auto. rewrite E1, E2. reflexivity. }
  destruct D as [(b & Hb & E)|D].
  - left. exists b. destruct (hexdigits_ok b Hb) as (_ & _ & R). rewrite <- E in R. cbn [nth] in R. auto.
  - right. split; [|auto]. intros b Hb E. destruct (hexdigits_ok b Hb) as (_ & _ & R). rewrite <- E in R. cbn [nth] in R. unfold byte in Hb. rewrite R in D. unfold BAD_DIGIT in D. lia.
Qed.

(* A header sent by the program is read back by it. *)
Lemma send_recv h tl r fuel : length h = 5%nat -> Forall byte h -> exists bs, zm_send_hex_hdr h (0 :: tl) = Ok (bs ++ [17]) /\
  await_header (S fuel) false (bs ++ r) = Ok (Some (OK, h, Some false, r)).
Proof. intros L H. destruct (send_ok h tl L H) as (bs & E & B). exists bs. split; auto. apply header_ok. auto. Qed.

Lemma block_safe_pub sg w buf max inp : (max <= length buf)%nat -> exists o, zm_read_data_block sg w buf max inp = Ok o /\
  forall c buf' len r, o = Some (c, buf', len, r) -> (len <= max)%nat /\ length buf' = length buf /\ skipn len buf' = skipn len buf.
Proof.
  intros H. destruct (block_safe sg w buf max inp H) as (o & E & Ho). exists o. split; auto. intros c buf' len r ->. tauto.
Qed.

Lemma put_blocks_acts l : forall t, Forall put_or_ack (snd (put_blocks t l)).
Proof.
  induction l as [|[d a] l IH]; intros t; cbn [put_blocks]; [constructor|]. cbv zeta.
  specialize (IH (t + Z.of_nat (length d))). destruct (put_blocks (t + Z.of_nat (length d)) l) as [t1 x]. cbn [snd] in *.
  destruct a; repeat constructor; auto.
Qed.

Lemma ans_asks pre : Forall (fun f => f = Ask) pre -> forall t fs, answers t (pre ++ fs) = map (fun _ => Header [1; 0; 0; 0; 34]) pre ++ answers t fs.
Proof. induction 1 as [|f pre -> P IH]; intros t fs; [reflexivity|]. cbn [app answers map]. rewrite IH. reflexivity. Qed.

Lemma ans_data mid : Forall is_data mid -> forall t fs, exists acts t', answers t (mid ++ fs) = acts ++ answers t' fs /\
  content acts = concat (map block_data mid) /\ Forall put_or_ack acts.
Proof.
  induction 1 as [|f mid D M IH]; intros t fs; [exists [], t; auto|]. destruct f as [|n i|l d]; try contradiction.
  cbn [app answers map concat block_data]. pose proof (put_blocks_content (l ++ [d]) t) as P. pose proof (put_blocks_acts (l ++ [d]) t) as A.
  destruct (put_blocks t (l ++ [d])) as [t1 x]. cbn [snd] in *. destruct (IH t1 fs) as (acts & t' & E & C & F).
  exists (x ++ acts), t'. rewrite E, content_app, P, C, app_assoc. repeat split; auto. apply Forall_app; auto.
Qed.

Lemma one_file open_ok junk after space pre mid post name info bs p w fin r :
  Forall (fun f => f = Ask) pre -> Forall is_data mid -> Forall (fun f => f = Ask) post ->
  frames_bytes (pre ++ [File name info] ++ mid ++ post) bs -> header (8 :: p) w fin -> length junk = DATA_BUF_LEN -> open_ok name = true ->
  (length (concat (map block_data mid)) <= space)%nat ->
  exists evs acts, rz_main false open_ok junk after space (bs ++ fin ++ r) = Ok evs /\
    map act evs = map (fun _ => Header [1; 0; 0; 0; 34]) pre ++ [OpenFile name; Header [9; 0; 0; 0; 0]] ++ acts ++
                  map (fun _ => Header [1; 0; 0; 0; 34]) post ++ [Header [8; 0; 0; 0; 0]; CloseFile] /\
    content acts = concat (map block_data mid) /\ Forall put_or_ack acts.
Proof.
  intros P M Q FS H J Op Sp.
  assert (Pn : names pre = [] /\ concat (map block_data pre) = [] /\ (forall fs, any_file (pre ++ fs) = any_file fs) /\
    forall o fs, data_after_file o fs -> data_after_file o (pre ++ fs)).
  { clear - P. induction P as [|f pre -> P (A & B & C & D)]; cbn; auto. }
  assert (Qn : names post = [] /\ concat (map block_data post) = [] /\ data_after_file true post).
  { clear - Q. induction Q as [|f pre -> P (A & B & C)]; cbn; auto. }
  assert (Mn : names mid = [] /\ data_after_file true (mid ++ post)).
  { clear - M Qn. induction M as [|f mid D M (A & B)]; [split; [auto|apply Qn]|]. destruct f; try contradiction. cbn. auto. }
  destruct Pn as (P1 & P2 & P3 & P4). destruct Qn as (Q1 & Q2 & Q3). destruct Mn as (M1 & M2).
  destruct (session open_ok junk after space _ bs p w fin r FS H J) as (evs & E & F).
  - apply P4. cbn. exact M2.
  - intros n Hn. unfold names in *. rewrite !flat_map_app, P1, M1, Q1 in Hn. cbn in Hn. destruct Hn as [<-|[]]; auto.
  - rewrite !map_app, !concat_app, P2, Q2. cbn [map concat block_data app]. rewrite app_nil_r. exact Sp.
  - rewrite P3 in F. cbn [any_file app] in F. rewrite ans_asks in F by auto. cbn [answers] in F.
    destruct (ans_data mid M 0 post) as (acts & t' & Ea & Ec & Ef).
    assert (Ep : answers t' post = map (fun _ => Header [1; 0; 0; 0; 34]) post).
    { pose proof (ans_asks post Q t' []) as X. rewrite app_nil_r in X. rewrite X. cbn. apply app_nil_r. }
    exists evs, acts. split; [exact E|]. split; [|auto]. rewrite F, Ea, Ep. rewrite <- !app_assoc. cbn [app]. rewrite <- app_assoc. reflexivity.
Qed.

Lemma second_file_pub : exists bs fin evs, frames_bytes two_files bs /\ header [8; 0; 0; 0; 0] true fin /\
  rz_main false (fun _ => true) (repeat 0 2048) [0] 1000 (bs ++ fin) = Ok evs /\
  map act evs = [Header [1; 0; 0; 0; 34]; OpenFile [97]; Header [9; 0; 0; 0; 0]; Put hello; Header [1; 0; 0; 0; 34];
                 OpenFile [98]; Header [9; 2; 0; 0; 0]; Put hello; Header [1; 0; 0; 0; 34]; Header [8; 0; 0; 0; 0]; CloseFile].
Proof.
  destruct (second_file true) as (evs & E & F). exists (flat_map (mk_frame true) two_files), (mk_hdr true [8; 0; 0; 0; 0]), evs.
  split; [apply mk_frames_ok, two_files_fit|]. split; [apply mk_hdr_ok; [reflexivity|repeat constructor; discriminate]|]. auto.
Qed.

Lemma position_pub p : length p = 4%nat -> Forall byte p -> exists a b c d evs, frame_bytes (File [97] []) a /\ header (10 :: p) true b /\
  block true hello 104 c /\ header [8; 0; 0; 0; 0] true d /\
  rz_main false (fun _ => true) (repeat 0 2048) [0] 1000 (a ++ b ++ c ++ d) = Ok evs /\
  map act evs = [OpenFile [97]; Header [9; 0; 0; 0; 0]; Put hello; Header [8; 0; 0; 0; 0]; CloseFile].
Proof.
  intros L H. destruct (position_ignored true p L H) as (evs & E & F).
  exists (mk_frame true (File [97] [])), (mk_hdr true (10 :: p)), (mk_block true hello 104), (mk_hdr true [8; 0; 0; 0; 0]), evs.
  split; [apply mk_frame_ok, file_a_fits|].
  split; [apply mk_hdr_ok; [cbn; lia|constructor; auto; unfold byte; lia]|].
  split; [apply mk_block_ok; [repeat constructor; discriminate|lia]|].
  split; [apply mk_hdr_ok; [reflexivity|repeat constructor; discriminate]|]. auto.
Qed.

Lemma name_pub : exists a b, header [4; 0; 0; 0; 0] true a /\ block true [97] 107 b /\
  rz_main false (fun _ => true) (repeat 66 2048) [] 1000 (a ++ b) = Ub /\
  rz_main false (fun _ => true) (repeat 66 2048) [0] 1000 (a ++ b) = Ok [Open (97 :: 107 :: repeat 66 2046); Send [9; 0; 0; 0; 0]] /\
  rz_main false (fun _ => true) (repeat 67 2048) [0] 1000 (a ++ b) = Ok [Open (97 :: 107 :: repeat 67 2046); Send [9; 0; 0; 0; 0]].
Proof.
  destruct (name_junk true) as (inp & (cs & -> & B) & R). exists (mk_hdr true [4; 0; 0; 0; 0]), cs.
  split; [apply mk_hdr_ok; [reflexivity|repeat constructor; discriminate]|]. auto.
Qed.

Lemma signed_pub : exists bs, block true [200] 104 bs /\ forall buf max r, (1 <= max)%nat ->
  exists e r', zm_read_data_block true true buf max (bs ++ r) = Ok (Some (e, buf, 0%nat, r')) /\ is_error e = true.
Proof.
  exists (mk_block true [200] 104). split; [apply mk_block_ok; [repeat constructor; discriminate|lia]|].
  intros buf max r H. apply signed_block; auto; try lia; discriminate.
Qed.
