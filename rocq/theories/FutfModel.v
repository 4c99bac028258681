(* Model of FatFs character handling: tchar2uni and put_utf of fatfs/fatfs.c
   and ff_wtoupper, ff_uni2oem, ff_oem2uni of fatfs/unicode.c.  A string pointer
   is the list of bytes from it on; reading past the list is Ub.  A character is
   in UTF-16: below 0x10000 one unit, otherwise a surrogate pair, high unit
   first. *)
From Verif Require Import Base.
Open Scope Z_scope.

Definition w32 (x : Z) : Z := x mod 4294967296.

(* *p++ *)
Definition next (l : list Z) : res (Z * list Z) :=
  match l with [] => Ub | b :: r => Ok (b, r) end.

(* IsSurrogate, fatfs/fatfs.c:53 *)
Definition is_surrogate (c : Z) : bool := (55296 <=? c) && (c <=? 57343).

(* The loop over nf trailing bytes, fatfs/fatfs.c:549-554; None: wrong
   sequence. *)
Fixpoint trailing (nf : nat) (uc : Z) (p : list Z) : res (option (Z * list Z)) :=
  match nf with
  | O => Ok (Some (uc, p))
  | S k =>
      '(b, p) <- next p ;;
      if negb (Z.land b 192 =? 128) then Ok None
      else trailing k (w32 (Z.lor (Z.shiftl uc 6) (Z.land b 63))) p
  end.

(* The first byte, fatfs/fatfs.c:537-548: data bits and trailing count. *)
Definition leading (uc : Z) : option (Z * nat) :=
  if Z.land uc 224 =? 192 then Some (Z.land uc 31, 1%nat)
  else if Z.land uc 240 =? 224 then Some (Z.land uc 15, 2%nat)
  else if Z.land uc 248 =? 240 then Some (Z.land uc 7, 3%nat)
  else None.

(* The surrogate pair made from a code point, fatfs/fatfs.c:557-559. *)
Definition to_pair (uc : Z) : Z :=
  if 65536 <=? uc then
    Z.lor (Z.lor 3623934976 (Z.land (w32 (Z.shiftl (uc - 65536) 6)) 67043328)) (Z.land uc 1023)
  else uc.

(* tchar2uni, fatfs/fatfs.c:525-564: the character (None for 0xFFFFFFFF) and the
   new pointer, which does not move on an error. *)
Definition tchar2uni (str : list Z) : res (option Z * list Z) :=
  '(uc, p) <- next str ;;
  if Z.land uc 128 =? 0 then Ok (Some uc, p)
  else
    match leading uc with
    | None => Ok (None, str)
    | Some (uc, nf) =>
        t <- trailing nf uc p ;;
        match t with
        | None => Ok (None, str)
        | Some (uc, p) =>
            if (uc <? 128) || is_surrogate uc || (1114112 <=? uc) then Ok (None, str)
            else Ok (Some (to_pair uc), p)
        end
    end.

(* put_utf, fatfs/fatfs.c:571-617: the bytes stored, none on an error; [szb] is
   the room in the buffer. *)
Definition put_utf (chr szb : Z) : list Z :=
  if chr <? 128 then if szb <? 1 then [] else [chr]
  else if chr <? 2048 then
    if szb <? 2 then [] else [Z.lor 192 (Z.land (Z.shiftr chr 6) 31); Z.lor 128 (Z.land chr 63)]
  else if chr <? 65536 then
    if (szb <? 3) || is_surrogate chr then []
    else [Z.lor 224 (Z.land (Z.shiftr chr 12) 15); Z.lor 128 (Z.land (Z.shiftr chr 6) 63); Z.lor 128 (Z.land chr 63)]
  else if szb <? 4 then []
  else
    let hc := Z.shiftr (w32 (Z.land chr 4294901760 - 3623878656)) 6 in
    let lc := w32 (Z.land chr 65535 - 56320) in
    if (1048576 <=? hc) || (1024 <=? lc) then []
    else
      let c := w32 (Z.lor hc lc + 65536) in
      [Z.lor 240 (Z.land (Z.shiftr c 18) 7); Z.lor 128 (Z.land (Z.shiftr c 12) 63);
       Z.lor 128 (Z.land (Z.shiftr c 6) 63); Z.lor 128 (Z.land c 63)].

(* The compressed tables of ff_wtoupper, fatfs/unicode.c:49-117. *)
Definition cvt1 : list Z := [
  97; 794; 224; 791; 248; 775; 255; 1; 376; 256; 304; 306; 262; 313; 272; 330; 302; 377; 262; 384; 77; 579;
  385; 386; 386; 388; 388; 390; 391; 391; 393; 394; 395; 395; 397; 398; 399; 400; 401; 401; 403; 404; 502;
  406; 407; 408; 408; 573; 411; 412; 413; 544; 415; 416; 416; 418; 418; 420; 420; 422; 423; 423; 425; 426;
  427; 428; 428; 430; 431; 431; 433; 434; 435; 435; 437; 437; 439; 440; 440; 442; 443; 444; 444; 446; 503;
  448; 449; 450; 451; 452; 453; 452; 455; 456; 455; 458; 459; 458; 461; 272; 477; 1; 398; 478; 274; 499; 3;
  497; 500; 500; 504; 296; 546; 274; 570; 9; 11365; 571; 571; 573; 11366; 575; 576; 577; 577; 582; 266;
  595; 64; 385; 390; 597; 393; 394; 600; 399; 602; 400; 604; 605; 606; 607; 403; 609; 610; 404; 612; 613;
  614; 615; 407; 406; 618; 11362; 620; 621; 622; 412; 624; 625; 413; 627; 628; 415; 630; 631; 632; 633;
  634; 635; 636; 11364; 638; 639; 422; 641; 642; 425; 644; 645; 646; 647; 430; 580; 433; 434; 581; 653;
  654; 655; 656; 657; 439; 891; 3; 1021; 1022; 1023; 940; 4; 902; 904; 905; 906; 945; 785; 962; 2; 931;
  931; 964; 776; 972; 3; 908; 910; 911; 984; 280; 1010; 10; 1017; 1011; 1012; 1013; 1014; 1015; 1015; 1017;
  1018; 1018; 1072; 800; 1104; 1808; 1120; 290; 1162; 310; 1217; 270; 1231; 1; 1216; 1232; 324; 1377; 1062;
  0
].
Definition cvt2 : list Z := [
  7549; 1; 11363; 7680; 406; 7840; 346; 7936; 1544; 7952; 1542; 7968; 1544; 7984; 1544; 8000; 1542; 8017;
  7; 8025; 8018; 8027; 8020; 8029; 8022; 8031; 8032; 1544; 8048; 14; 8122; 8123; 8136; 8137; 8138; 8139;
  8154; 8155; 8184; 8185; 8170; 8171; 8186; 8187; 8064; 1544; 8080; 1544; 8096; 1544; 8112; 4; 8120; 8121;
  8114; 8124; 8140; 1; 8131; 8144; 1538; 8160; 1538; 8165; 1; 8172; 8179; 1; 8188; 8526; 1; 8498; 8560;
  528; 8580; 1; 8579; 9424; 1306; 11312; 1071; 11360; 258; 11367; 262; 11381; 258; 11392; 356; 11520; 2086;
  65345; 794; 0
].

Definition w16 (x : Z) : Z := x mod 65536.

(* The switch, fatfs/unicode.c:131-159; [p] is the pointer behind the block
   size. *)
Definition convert (cmd uc bc : Z) (p : list Z) : res Z :=
  if cmd =? 0 then match nth_error p (Z.to_nat (uc - bc)) with Some v => Ok v | None => Ub end
  else if cmd =? 1 then Ok (w16 (uc - Z.land (uc - bc) 1))
  else if cmd =? 2 then Ok (w16 (uc - 16))
  else if cmd =? 3 then Ok (w16 (uc - 32))
  else if cmd =? 4 then Ok (w16 (uc - 48))
  else if cmd =? 5 then Ok (w16 (uc - 26))
  else if cmd =? 6 then Ok (w16 (uc + 8))
  else if cmd =? 7 then Ok (w16 (uc - 80))
  else if cmd =? 8 then Ok (w16 (uc - 7264))
  else Ok uc.

(* The table walk, fatfs/unicode.c:122-162. *)
Fixpoint walk (fuel : nat) (uc : Z) (p : list Z) : res Z :=
  match fuel with
  | O => NoFuel
  | S k =>
      '(bc, p) <- next p ;;
      if (bc =? 0) || (uc <? bc) then Ok uc
      else
        '(nc, p) <- next p ;;
        let cmd := Z.shiftr nc 8 in
        let nc := Z.land nc 255 in
        if uc <? bc + nc then convert cmd uc bc p
        else if cmd =? 0 then
          (if (length p <? Z.to_nat nc)%nat then Ub else walk k uc (skipn (Z.to_nat nc) p))
        else walk k uc p
  end.

(* ff_wtoupper, fatfs/unicode.c:45-167 *)
Definition ff_wtoupper (uni : Z) : res Z :=
  if uni <? 65536 then walk 200 uni (if uni <? 4096 then cvt1 else cvt2) else Ok uni.

(* ff_uni2oem and ff_oem2uni, fatfs/unicode.c:22-40 *)
Definition ff_uni2oem (uni : Z) : Z := if uni <? 32 then 63 else if 126 <? uni then 63 else uni.
Definition ff_oem2uni (oem : Z) : Z := oem.
