From Verif Require Import Base FatModel FatSpec MkfsModel MountModel MkfsSpec MkfsProof MkfsProof2 MkfsProof3 MkfsProof4 MkfsProof5 MkfsProof6 MkfsProof7 MkfsProof8 MkfsProof14 SerialModel.
Open Scope Z_scope.

Lemma vsn_bytes D b_vol sz_vol vsn l o : let v := vbr D b_vol sz_vol vsn l nil_buf in
  0 <= o < 4 -> v ((match l_type l with FAT32 => 67 | _ => 39 end) + o) = nth (Z.to_nat o) (le4 vsn) 0.
Proof.
  intros v O. assert (C : o = 0 \/ o = 1 \/ o = 2 \/ o = 3) by lia. unfold v, vbr; cbv zeta.
  destruct C as [ -> | [ -> | [ -> | -> ]]]; destruct (l_type l), (sz_vol <? 65536);
  repeat (rewrite poke_out by (unfold le2, le4, msdos, no_name, fat_, fat32_; cbn [length app]; lia));
  (rewrite poke_in by (unfold le2, le4, msdos, no_name, fat_, fat32_; cbn [length app]; lia)); reflexivity.
Qed.

Lemma serial_vbr D b_vol sz_vol vsn l w : 0 <= vsn < 4294967296 -> (forall o, 0 <= o < 512 -> w o = vbr D b_vol sz_vol vsn l nil_buf o) ->
  ld4 w (match l_type l with FAT32 => 67 | _ => 39 end) = vsn.
Proof.
  intros V W. pose proof (vsn_bytes D b_vol sz_vol vsn l) as B. cbv zeta in B. unfold ld4.
  set (p := match l_type l with FAT32 => 67 | _ => 39 end) in *. assert (P : 0 <= p <= 67) by (unfold p; destruct (l_type l); lia).
  rewrite <- (Z.add_0_r p) at 1. rewrite !W by lia. rewrite !B by lia. cbn [le4]. apply (le4_val vsn V).
Qed.

Theorem serial_ok fuel D d fmt buf len t d' : usable D -> bytes d -> (forall o, vbyte (buf o)) -> 0 <= len -> (4 <= fuel)%nat ->
  d_blk D <= 16 -> f_mkfs fuel D d fmt buf len t = Ok (MK_OK, d') -> forall w, exists m v,
  mount D d' w = Mounted m /\ get_serial m = (v, FR_OK, (d_size D - volbase (m_geo m) + t) mod 4294967296) /\ disk v = d'.
Proof.
  intros Us Bd Bb Le Fu Bk H w. destruct (formatted fuel D d fmt buf len t d' Us Bd Bb Le Fu Bk H) as (T & vsn & l & Ev & C & N).
  destruct (done_mount D fmt vsn d d' l w (us_size _ Us) C N T) as (m & M1 & M2 & M3 & M4 & M5 & _).
  destruct C as (Ss & Sv & _ & _ & W & _). pose proof (lo_start _ _ _ M3) as St. pose proof (lo_dsize _ _ _ M3) as Ds. pose proof (lo_fats _ _ _ M3) as Nf. pose proof (lo_ss _ _ _ M3) as Se.
  destruct M4 as [_ _ _ _ V Cl]. exists m.
  assert (P : 512 <= d_ss D) by (clear - Ss; destruct Ss as [E|[E|[E|E]]]; lia).
  assert (Lt : match ftype (m_geo m) with FAT32 => 67 | _ => 39 end = match l_type l with FAT32 => 67 | _ => 39 end) by (rewrite M2; reflexivity).
  assert (S0 : 0 <= start D fmt) by (destruct (start_two D fmt); lia).
  assert (Vs : 0 <= vsn < 4294967296) by (rewrite Ev; unfold w32; apply Z.mod_pos_bound; lia).
  assert (Mi : mine (m_geo m) (volbase (m_geo m))) by (split; [lia|intros [X _]; lia]).
  unfold get_serial, move_window. destruct (Z.eqb_spec (volbase (m_geo m)) (winsect (m_vol m))) as [E|E]; cbn [negb].
  - exists (m_vol m). split; [exact M1|]. split; [|exact M5]. rewrite Lt. f_equal. rewrite St. replace ((d_size D - start D fmt + t) mod 4294967296) with vsn by (rewrite Ev; reflexivity).
    apply (serial_vbr (drive' D) (start D fmt) (d_size D - start D fmt) vsn l); [exact Vs|]. intros o O. rewrite E in Mi. rewrite (ok_clean _ _ V Cl Mi) by lia. rewrite M5, <- E, St. apply (wv_vbr _ _ _ _ _ _ _ W). change (d_ss (drive' D)) with (d_ss D). lia.
  - unfold sync_window. rewrite Cl. unfold disk_read. replace ((0 <=? volbase (m_geo m)) && (volbase (m_geo m) <? dsize (m_geo m))) with true by (rewrite St, Ds; lia).
    exists (set_win (m_vol m) (disk (m_vol m) (volbase (m_geo m))) (volbase (m_geo m))). split; [exact M1|]. split; [|exact M5]. rewrite Lt. f_equal. rewrite St. replace ((d_size D - start D fmt + t) mod 4294967296) with vsn by (rewrite Ev; reflexivity). cbn [set_win win].
    apply (serial_vbr (drive' D) (start D fmt) (d_size D - start D fmt) vsn l); [exact Vs|]. intros o O. rewrite M5. apply (wv_vbr _ _ _ _ _ _ _ W). change (d_ss (drive' D)) with (d_ss D). lia.
Qed.
