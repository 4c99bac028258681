(* The window and the bytes of the FAT. *)
From Coq Require Import ZifyClasses ZifyInst ZifyBool.
From Verif Require Import Base FatModel FatSpec Finite FutfProof.
Open Scope Z_scope.
Ltac Zify.zify_post_hook ::= Z.div_mod_to_equations.

Lemma w32_id x : 0 <= x < 4294967296 -> w32 x = x.
Proof. intros. unfold w32. apply Z.mod_small. lia. Qed.
Lemma upd_eq {A} (f : Z -> A) i x : upd f i x i = x.
Proof. unfold upd. now rewrite Z.eqb_refl. Qed.
Lemma upd_ne {A} (f : Z -> A) i x j : j <> i -> upd f i x j = f j.
Proof. intros. unfold upd. destruct (Z.eqb_spec j i); [lia|auto]. Qed.

(* The same content, as far as the file system can see. *)
Definition same (g : geo) (v v' : vol) : Prop :=
  vol_ok g v' /\ (forall s o, mine g s -> 0 <= o < ss g -> view v' s o = view v s o) /\ same_info v v'.

Lemma same_refl g v : vol_ok g v -> same g v v.
Proof. intros. split; [auto|]. split; [auto|]. now unfold same_info. Qed.
Lemma same_trans g a b c : same g a b -> same g b c -> same g a c.
Proof.
  intros (A1 & A2 & A3 & A4 & A5) (B1 & B2 & B3 & B4 & B5). split; [auto|]. split.
  - intros. rewrite B2, A2; auto.
  - unfold same_info. rewrite B3, B4, B5. auto.
Qed.

Lemma in_fat_mine g s : geo_ok g -> in_fat g s -> mine g s.
Proof.
  intros G H. pose proof (ok_fats g G). pose proof (ok_disk g G). pose proof (ok_base g G). pose proof (ok_fsize g G).
  unfold in_fat, mine, second in *. destruct (ok_fats g G) as [F|F]; rewrite F in *; lia.
Qed.

Lemma fat_test g s : geo_ok g -> mine g s -> (w32 (s - fatbase g) <? fsize g) = true <-> in_fat g s.
Proof.
  intros G [M _]. pose proof (ok_disk g G). pose proof (ok_base g G). pose proof (ok_fsize g G). pose proof (ok_dsize g G).
  unfold in_fat, w32. assert (fatbase g + fsize g < 4294967295) by (destruct (ok_fats g G) as [F|F]; rewrite F in *; lia).
  rewrite Z.ltb_lt. lia.
Qed.

Lemma sync_ok g v : geo_ok g -> vol_ok g v ->
  exists v', sync_window g v = (v', FR_OK) /\ same g v v' /\ wflag v' = false /\ winsect v' = winsect v /\
             (forall s o, mine g s -> 0 <= o < ss g -> disk v' s o = view v s o).
Proof.
  intros G V. pose proof (Hd := ok_dbyte _ _ V). pose proof (Hw := ok_wbyte _ _ V). unfold sync_window.
  destruct (wflag v) eqn:W.
  2: { exists v. split; auto. split; [now apply same_refl|]. split; [auto|]. split; [auto|].
       intros s o M O. unfold view. destruct (Z.eqb_spec s (winsect v)) as [->|]; [|auto].
       symmetry. now apply (ok_clean _ _ V). }
  destruct (ok_sect _ _ V) as [M|[_ X]]; [|congruence]. pose proof M as [M1 M2].
  unfold disk_write at 1. replace ((0 <=? winsect v) && (winsect v <? dsize g)) with true by lia.
  cbn [set_wflag set_disk winsect].
  destruct (w32 (winsect v - fatbase g) <? fsize g) eqn:T.
  - apply (fat_test g _ G M) in T. destruct (Z.eqb_spec (n_fats g) 2) as [N|N]; cbn [andb].
    + assert (B : winsect v + fsize g < dsize g) by (destruct G; unfold in_fat in T; nia).
      assert (B0 : 0 <= fsize g) by (destruct G; lia).
      rewrite w32_id by (destruct G; lia).
      unfold disk_write. replace ((0 <=? winsect v + fsize g) && (winsect v + fsize g <? dsize g)) with true by lia.
      eexists. split; [reflexivity|]. cbn. split; [|split; [auto|split; [auto|]]].
      * split; [|split].
        -- constructor; cbn.
           ++ intros s o. unfold upd. destruct (s =? winsect v + fsize g); [apply Hw|]. destruct (s =? winsect v); [apply Hw|apply Hd].
           ++ auto.
           ++ auto.
           ++ intros _ _ o O. rewrite upd_ne by (destruct G; lia). now rewrite upd_eq.
           ++ intros _ s o I O. unfold in_fat in *. destruct (Z.eq_dec s (winsect v)) as [->|D].
              ** rewrite upd_eq. rewrite upd_ne by (destruct G; lia). now rewrite upd_eq.
              ** rewrite upd_ne by lia. rewrite upd_ne by (intros Q; destruct G; lia). rewrite upd_ne by lia. rewrite upd_ne by lia. apply (ok_mirror _ _ V N); auto.
        -- intros s o Ms O. unfold view; cbn. destruct (Z.eqb_spec s (winsect v)) as [|D]; [auto|].
           assert (s <> winsect v + fsize g) by (intros ->; apply Ms; unfold second, in_fat in *; lia).
           rewrite !upd_ne by auto. auto.
        -- now unfold same_info.
      * intros s o Ms O. unfold view.
        assert (s <> winsect v + fsize g) by (intros ->; apply Ms; unfold second, in_fat in *; lia).
        rewrite upd_ne by auto. unfold upd. now destruct (Z.eqb_spec s (winsect v)) as [->|].
    + eexists. split; [reflexivity|]. cbn. split; [|split; [auto|split; [auto|]]].
      * split; [|split].
        -- constructor; cbn; auto.
           ++ intros s o. unfold upd. destruct (s =? winsect v); [apply Hw|apply Hd].
           ++ intros _ _ o O. now rewrite upd_eq.
           ++ intros Q. lia.
        -- intros s o Ms O. unfold view; cbn. destruct (Z.eqb_spec s (winsect v)) as [|D]; [auto|].
           now rewrite upd_ne.
        -- now unfold same_info.
      * intros s o Ms O. unfold view, upd. now destruct (Z.eqb_spec s (winsect v)) as [->|].
  - cbn [andb]. eexists. split; [reflexivity|]. cbn.
    assert (NF : ~ in_fat g (winsect v)) by (intros Q; apply (fat_test g _ G M) in Q; congruence).
    split; [|split; [auto|split; [auto|]]].
    + split; [|split].
      * constructor; cbn; auto.
        -- intros s o. unfold upd. destruct (s =? winsect v); [apply Hw|apply Hd].
        -- intros _ _ o O. now rewrite upd_eq.
        -- intros N s o I O. rewrite !upd_ne; [apply (ok_mirror _ _ V N); auto| |].
           ++ intros ->. auto.
           ++ intros Q. apply M2. unfold second, in_fat in *. lia.
      * intros s o Ms O. unfold view; cbn. destruct (Z.eqb_spec s (winsect v)) as [|D]; [auto|].
        now rewrite upd_ne.
      * now unfold same_info.
    + intros s o Ms O. unfold view, upd. now destruct (Z.eqb_spec s (winsect v)) as [->|].
Qed.

Lemma move_ok g v s : geo_ok g -> vol_ok g v -> mine g s ->
  exists v', move_window g v s = (v', FR_OK) /\ same g v v' /\ winsect v' = s.
Proof.
  intros G V M. unfold move_window. destruct (Z.eqb_spec s (winsect v)) as [->|D]; cbn [negb].
  { exists v. split; auto. split; [now apply same_refl|auto]. }
  destruct (sync_ok g v G V) as (v1 & E & (V1 & S1 & I1) & W1 & X1 & D1). rewrite E.
  unfold disk_read. pose proof M as [M1 M2]. replace ((0 <=? s) && (s <? dsize g)) with true by lia.
  eexists. split; [reflexivity|]. split; [|reflexivity].
  split; [|split].
  - constructor; cbn.
    + apply V1.
    + intros o. apply V1.
    + auto.
    + auto.
    + apply V1.
  - intros x o Mx O. unfold view at 1. cbn. destruct (Z.eqb_spec x s) as [->|Q]; apply D1; auto.
  - exact I1.
Qed.

(* Changing bytes of the sector in the window. *)
Lemma dirty_ok g v w : geo_ok g -> vol_ok g v -> mine g (winsect v) -> (forall o, vbyte (w o)) ->
  vol_ok g (dirty v w) /\ same_info v (dirty v w) /\
  (forall s o, view (dirty v w) s o = if s =? winsect v then w o else view v s o).
Proof.
  intros G V M W. split; [|split].
  - constructor; cbn; try apply V; auto. discriminate.
  - now unfold same_info.
  - intros s o. unfold view. cbn. destruct (s =? winsect v); auto.
Qed.

(* --- bytes of the FAT ------------------------------------------------------------ *)

Record step (g : geo) (v v' : vol) (F : Z -> Z) : Prop := {
  st_ok : vol_ok g v';
  st_fat : forall i, 0 <= i < fsize g * ss g -> fat_byte g v' i = F i;
  st_out : same_outside g v v';
  st_info : same_info v v';
  st_win : winsect v' = winsect v \/ in_fat g (winsect v') }.

Lemma ss_pos g : geo_ok g -> 512 <= ss g <= 4096.
Proof. intros []. lia. Qed.

Lemma byte_sector g i : geo_ok g -> 0 <= i < fsize g * ss g -> in_fat g (fatbase g + i / ss g).
Proof.
  intros G H. pose proof (ss_pos g G). unfold in_fat. assert (0 <= i / ss g) by (apply Z.div_pos; lia).
  assert (i / ss g < fsize g) by (apply Z.div_lt_upper_bound; lia). lia.
Qed.

Lemma same_step g v v' : geo_ok g -> same g v v' -> winsect v' = winsect v \/ in_fat g (winsect v') -> step g v v' (fat_byte g v).
Proof.
  intros G (V & S1 & I) W. constructor; auto.
  - intros i Hi. unfold fat_byte. apply S1; [apply in_fat_mine; auto; now apply byte_sector|].
    apply Z.mod_pos_bound. pose proof (ss_pos g G). lia.
  - intros s o [M _] O. now apply S1.
Qed.

Lemma info_trans a b c : same_info a b -> same_info b c -> same_info a c.
Proof. unfold same_info. intros (A1 & A2 & A3) (B1 & B2 & B3). rewrite B1, B2, B3. auto. Qed.

Lemma step_trans g a b c F H : step g a b F -> step g b c H ->
  step g a c H.
Proof.
  intros [A1 A2 A3 A4 A5] [B1 B2 B3 B4 B5]. constructor; auto.
  - intros s o M O. rewrite B3, A3; auto.
  - eapply info_trans; eauto.
  - destruct B5 as [B5|B5]; [rewrite B5|]; auto.
Qed.
Lemma step_ext g a b F H : step g a b F -> (forall i, 0 <= i < fsize g * ss g -> F i = H i) -> step g a b H.
Proof. intros [A1 A2 A3 A4 A5] E. constructor; auto. intros i Hi. rewrite <- E by auto. auto. Qed.

Lemma near g i k : geo_ok g -> 0 <= i -> 0 <= k -> i mod ss g + k < ss g ->
  (i + k) / ss g = i / ss g /\ (i + k) mod ss g = i mod ss g + k.
Proof.
  intros G Hi Hk B. pose proof (ss_pos g G) as SS.
  pose proof (Z.mod_pos_bound i (ss g) ltac:(lia)).
  assert (Q : i + k = ss g * (i / ss g) + (i mod ss g + k)) by (pose proof (Z.div_mod i (ss g) ltac:(lia)); lia).
  split; symmetry.
  - apply (Z.div_unique (i + k) (ss g) (i / ss g) (i mod ss g + k)); [left; lia|exact Q].
  - apply (Z.mod_unique (i + k) (ss g) (i / ss g) (i mod ss g + k)); [left; lia|exact Q].
Qed.

(* Moving the window to byte i of the FAT. *)
Lemma at_byte g v i : geo_ok g -> vol_ok g v -> 0 <= i < fsize g * ss g ->
  exists v', move_window g v (w32 (fatbase g + i / ss g)) = (v', FR_OK) /\ step g v v' (fat_byte g v) /\
             winsect v' = fatbase g + i / ss g /\
             (forall k, 0 <= k -> i mod ss g + k < ss g -> win v' (i mod ss g + k) = fat_byte g v (i + k)).
Proof.
  intros G V Hi. pose proof (byte_sector g i G Hi) as F. pose proof (in_fat_mine g _ G F) as M.
  rewrite w32_id by (destruct M; destruct G; lia).
  destruct (move_ok g v _ G V M) as (v' & E & S1 & W). exists v'. split; [auto|].
  pose proof (same_step g v v' G S1 ltac:(rewrite W; auto)) as T. split; [auto|]. split; [auto|].
  intros k K B. destruct (near g i k G ltac:(lia) K B) as [N1 N2].
  assert (R : 0 <= i + k < fsize g * ss g).
  { unfold in_fat in F. rewrite <- N1 in F. pose proof (ss_pos g G).
    pose proof (Z.div_mod (i + k) (ss g) ltac:(lia)) as Q. pose proof (Z.mod_pos_bound (i + k) (ss g) ltac:(lia)). nia. }
  rewrite <- (st_fat _ _ _ _ T _ R). unfold fat_byte, view. rewrite N1, N2, W, Z.eqb_refl. auto.
Qed.

(* Changing the window, at a sector of the FAT. *)
Lemma fat_dirty g v i w : geo_ok g -> vol_ok g v -> 0 <= i < fsize g * ss g -> winsect v = fatbase g + i / ss g ->
  (forall o, vbyte (w o)) ->
  step g v (dirty v w) (fun j => if j / ss g =? i / ss g then w (j mod ss g) else fat_byte g v j).
Proof.
  intros G V Hi W B. pose proof (byte_sector g i G Hi) as F. pose proof (in_fat_mine g _ G F) as M.
  destruct (dirty_ok g v w G V) as (D1 & D2 & D3); [now rewrite W|auto|]. constructor; auto.
  - intros j Hj. unfold fat_byte. rewrite D3, W. destruct (Z.eqb_spec (j / ss g) (i / ss g)) as [->|].
    + now rewrite Z.eqb_refl.
    + replace (fatbase g + j / ss g =? fatbase g + i / ss g) with false by lia. auto.
  - intros s o [M1 M2] O. rewrite D3. destruct (Z.eqb_spec s (winsect v)) as [->|]; [|auto].
    exfalso. apply M2. now rewrite W.
Qed.

Lemma upd_byte w i b : (forall o, vbyte (w o)) -> forall o, vbyte (upd w i (w8 b) o).
Proof. intros B o. unfold upd. destruct (o =? i); [unfold vbyte, w8; lia|apply B]. Qed.

Lemma same_spot g i j : geo_ok g -> j / ss g = i / ss g -> j mod ss g = i mod ss g -> j = i.
Proof. intros G A B. pose proof (ss_pos g G). rewrite (Z.div_mod j (ss g)), (Z.div_mod i (ss g)) by lia. now rewrite A, B. Qed.

Lemma fat_upd1 g v i b : geo_ok g -> vol_ok g v -> 0 <= i < fsize g * ss g -> winsect v = fatbase g + i / ss g ->
  step g v (dirty v (upd (win v) (i mod ss g) (w8 b))) (upd (fat_byte g v) i (w8 b)).
Proof.
  intros G V Hi W. eapply step_ext; [apply (fat_dirty g v i); auto; apply upd_byte; apply V|].
  intros j Hj. cbv beta. unfold upd. destruct (Z.eqb_spec j i) as [->|D].
  - now rewrite !Z.eqb_refl.
  - destruct (Z.eqb_spec (j / ss g) (i / ss g)) as [E|E]; [|auto].
    destruct (Z.eqb_spec (j mod ss g) (i mod ss g)) as [E1|E1]; [exfalso; apply D; now apply (same_spot g)|].
    unfold fat_byte, view. rewrite W, E, Z.eqb_refl. auto.
Qed.

(* --- little-endian numbers ---------------------------------------------------- *)

Lemma lor8 a b : 0 <= a -> vbyte b -> Z.lor (Z.shiftl a 8) b = a * 256 + b.
Proof. intros A B. rewrite Z.shiftl_mul_pow2 by lia. change 256 with (2 ^ 8). apply lor_lowk; unfold vbyte in *; change (2 ^ 8) with 256; lia. Qed.

Lemma rd_ok w i : 0 <= i < 4096 -> rd w i = Ok (w i).
Proof. intros. unfold rd. now replace ((0 <=? i) && (i <? 4096)) with true by lia. Qed.
Lemma wr_ok w i b : 0 <= i < 4096 -> wr w i b = Ok (upd w i (w8 b)).
Proof. intros. unfold wr. now replace ((0 <=? i) && (i <? 4096)) with true by lia. Qed.

Lemma ld_word_ok w i : (forall o, vbyte (w o)) -> 0 <= i -> i + 2 <= 4096 -> ld_word w i = Ok (w i + 256 * w (i + 1)).
Proof.
  intros B L H. unfold ld_word. rewrite !rd_ok by lia. cbn [bind]. pose proof (B i). pose proof (B (i + 1)).
  unfold vbyte in *. rewrite lor8 by (unfold vbyte; lia). f_equal. lia.
Qed.
Lemma ld_dword_ok w i : (forall o, vbyte (w o)) -> 0 <= i -> i + 4 <= 4096 ->
  ld_dword w i = Ok (w i + 256 * w (i + 1) + 65536 * w (i + 2) + 16777216 * w (i + 3)).
Proof.
  intros B L H. unfold ld_dword. rewrite !rd_ok by lia. cbn [bind].
  pose proof (B i). pose proof (B (i + 1)). pose proof (B (i + 2)). pose proof (B (i + 3)).
  unfold vbyte in *. rewrite (lor8 (w (i + 3))) by (unfold vbyte; lia). rewrite (lor8 _ (w (i + 1))) by (unfold vbyte; lia).
  rewrite lor8 by (unfold vbyte; lia). f_equal. lia.
Qed.
