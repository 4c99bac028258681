(* Model of apps/rz/crc.c, the checksum loops of apps/rz/zheaders.c and
   pico/sd_pico/crc.c.  Bytes are Z in 0..255; char is unsigned on the Pico, so
   data[i] is not sign-extended. *)
From Verif Require Import Base Arr.
Open Scope Z_scope.

(* crc16_ccitt_table, apps/rz/crc.c:6-33 *)
Definition crc16_ccitt_table : list Z := [
  0; 4129; 8258; 12387; 16516; 20645; 24774; 28903; 33032; 37161; 41290; 45419; 49548; 53677; 57806;
  61935; 4657; 528; 12915; 8786; 21173; 17044; 29431; 25302; 37689; 33560; 45947; 41818; 54205; 50076;
  62463; 58334; 9314; 13379; 1056; 5121; 25830; 29895; 17572; 21637; 42346; 46411; 34088; 38153;
  58862; 62927; 50604; 54669; 13907; 9842; 5649; 1584; 30423; 26358; 22165; 18100; 46939; 42874;
  38681; 34616; 63455; 59390; 55197; 51132; 18628; 22757; 26758; 30887; 2112; 6241; 10242; 14371;
  51660; 55789; 59790; 63919; 35144; 39273; 43274; 47403; 23285; 19156; 31415; 27286; 6769; 2640;
  14899; 10770; 56317; 52188; 64447; 60318; 39801; 35672; 47931; 43802; 27814; 31879; 19684; 23749;
  11298; 15363; 3168; 7233; 60846; 64911; 52716; 56781; 44330; 48395; 36200; 40265; 32407; 28342;
  24277; 20212; 15891; 11826; 7761; 3696; 65439; 61374; 57309; 53244; 48923; 44858; 40793; 36728;
  37256; 33193; 45514; 41451; 53516; 49453; 61774; 57711; 4224; 161; 12482; 8419; 20484; 16421; 28742;
  24679; 33721; 37784; 41979; 46042; 49981; 54044; 58239; 62302; 689; 4752; 8947; 13010; 16949; 21012;
  25207; 29270; 46570; 42443; 38312; 34185; 62830; 58703; 54572; 50445; 13538; 9411; 5280; 1153;
  29798; 25671; 21540; 17413; 42971; 47098; 34713; 38840; 59231; 63358; 50973; 55100; 9939; 14066;
  1681; 5808; 26199; 30326; 17941; 22068; 55628; 51565; 63758; 59695; 39368; 35305; 47498; 43435;
  22596; 18533; 30726; 26663; 6336; 2273; 14466; 10403; 52093; 56156; 60223; 64286; 35833; 39896;
  43963; 48026; 19061; 23124; 27191; 31254; 2801; 6864; 10931; 14994; 64814; 60687; 56684; 52557;
  48554; 44427; 40424; 36297; 31782; 27655; 23652; 19525; 15522; 11395; 7392; 3265; 61215; 65342;
  53085; 57212; 44955; 49082; 36825; 40952; 28183; 32310; 20053; 24180; 11923; 16050; 3793; 7920].

(* crc32_table, apps/rz/crc.c:38-82 *)
Definition crc32_table : list Z := [
  0; 1996959894; 3993919788; 2567524794; 124634137; 1886057615; 3915621685; 2657392035; 249268274;
  2044508324; 3772115230; 2547177864; 162941995; 2125561021; 3887607047; 2428444049; 498536548;
  1789927666; 4089016648; 2227061214; 450548861; 1843258603; 4107580753; 2211677639; 325883990;
  1684777152; 4251122042; 2321926636; 335633487; 1661365465; 4195302755; 2366115317; 997073096;
  1281953886; 3579855332; 2724688242; 1006888145; 1258607687; 3524101629; 2768942443; 901097722;
  1119000684; 3686517206; 2898065728; 853044451; 1172266101; 3705015759; 2882616665; 651767980;
  1373503546; 3369554304; 3218104598; 565507253; 1454621731; 3485111705; 3099436303; 671266974;
  1594198024; 3322730930; 2970347812; 795835527; 1483230225; 3244367275; 3060149565; 1994146192;
  31158534; 2563907772; 4023717930; 1907459465; 112637215; 2680153253; 3904427059; 2013776290;
  251722036; 2517215374; 3775830040; 2137656763; 141376813; 2439277719; 3865271297; 1802195444;
  476864866; 2238001368; 4066508878; 1812370925; 453092731; 2181625025; 4111451223; 1706088902;
  314042704; 2344532202; 4240017532; 1658658271; 366619977; 2362670323; 4224994405; 1303535960;
  984961486; 2747007092; 3569037538; 1256170817; 1037604311; 2765210733; 3554079995; 1131014506;
  879679996; 2909243462; 3663771856; 1141124467; 855842277; 2852801631; 3708648649; 1342533948;
  654459306; 3188396048; 3373015174; 1466479909; 544179635; 3110523913; 3462522015; 1591671054;
  702138776; 2966460450; 3352799412; 1504918807; 783551873; 3082640443; 3233442989; 3988292384;
  2596254646; 62317068; 1957810842; 3939845945; 2647816111; 81470997; 1943803523; 3814918930;
  2489596804; 225274430; 2053790376; 3826175755; 2466906013; 167816743; 2097651377; 4027552580;
  2265490386; 503444072; 1762050814; 4150417245; 2154129355; 426522225; 1852507879; 4275313526;
  2312317920; 282753626; 1742555852; 4189708143; 2394877945; 397917763; 1622183637; 3604390888;
  2714866558; 953729732; 1340076626; 3518719985; 2797360999; 1068828381; 1219638859; 3624741850;
  2936675148; 906185462; 1090812512; 3747672003; 2825379669; 829329135; 1181335161; 3412177804;
  3160834842; 628085408; 1382605366; 3423369109; 3138078467; 570562233; 1426400815; 3317316542;
  2998733608; 733239954; 1555261956; 3268935591; 3050360625; 752459403; 1541320221; 2607071920;
  3965973030; 1969922972; 40735498; 2617837225; 3943577151; 1913087877; 83908371; 2512341634;
  3803740692; 2075208622; 213261112; 2463272603; 3855990285; 2094854071; 198958881; 2262029012;
  4057260610; 1759359992; 534414190; 2176718541; 4139329115; 1873836001; 414664567; 2282248934;
  4279200368; 1711684554; 285281116; 2405801727; 4167216745; 1634467795; 376229701; 2685067896;
  3608007406; 1308918612; 956543938; 2808555105; 3495958263; 1231636301; 1047427035; 2932959818;
  3654703836; 1088359270; 936918000; 2847714899; 3736837829; 1202900863; 817233897; 3183342108;
  3401237130; 1404277552; 615818150; 3134207493; 3453421203; 1423857449; 601450431; 3009837614;
  3294710456; 1567103746; 711928724; 3020668471; 3272380065; 1510334235; 755167117].

(* m_Crc7Table, pico/sd_pico/crc.c:33-50 *)
Definition crc7_table : list Z := [
  0; 9; 18; 27; 36; 45; 54; 63; 72; 65; 90; 83; 108; 101; 126; 119; 25; 16; 11; 2; 61; 52; 47; 38; 81;
  88; 67; 74; 117; 124; 103; 110; 50; 59; 32; 41; 22; 31; 4; 13; 122; 115; 104; 97; 94; 87; 76; 69;
  43; 34; 57; 48; 15; 6; 29; 20; 99; 106; 113; 120; 71; 78; 85; 92; 100; 109; 118; 127; 64; 73; 82;
  91; 44; 37; 62; 55; 8; 1; 26; 19; 125; 116; 111; 102; 89; 80; 75; 66; 53; 60; 39; 46; 17; 24; 3; 10;
  86; 95; 68; 77; 114; 123; 96; 105; 30; 23; 12; 5; 58; 51; 40; 33; 79; 70; 93; 84; 107; 98; 121; 112;
  7; 14; 21; 28; 35; 42; 49; 56; 65; 72; 83; 90; 101; 108; 119; 126; 9; 0; 27; 18; 45; 36; 63; 54; 88;
  81; 74; 67; 124; 117; 110; 103; 16; 25; 2; 11; 52; 61; 38; 47; 115; 122; 97; 104; 87; 94; 69; 76;
  59; 50; 41; 32; 31; 22; 13; 4; 106; 99; 120; 113; 78; 71; 92; 85; 34; 43; 48; 57; 6; 15; 20; 29; 37;
  44; 55; 62; 1; 8; 19; 26; 109; 100; 127; 118; 73; 64; 91; 82; 60; 53; 46; 39; 24; 17; 10; 3; 116;
  125; 102; 111; 80; 89; 66; 75; 23; 30; 5; 12; 51; 58; 33; 40; 95; 86; 77; 68; 123; 114; 105; 96; 14;
  7; 28; 21; 42; 35; 56; 49; 70; 79; 84; 93; 98; 107; 112; 121].

(* m_Crc16Table, pico/sd_pico/crc.c:52-75 *)
Definition sd_crc16_table : list Z := [
  0; 4129; 8258; 12387; 16516; 20645; 24774; 28903; 33032; 37161; 41290; 45419; 49548; 53677; 57806;
  61935; 4657; 528; 12915; 8786; 21173; 17044; 29431; 25302; 37689; 33560; 45947; 41818; 54205; 50076;
  62463; 58334; 9314; 13379; 1056; 5121; 25830; 29895; 17572; 21637; 42346; 46411; 34088; 38153;
  58862; 62927; 50604; 54669; 13907; 9842; 5649; 1584; 30423; 26358; 22165; 18100; 46939; 42874;
  38681; 34616; 63455; 59390; 55197; 51132; 18628; 22757; 26758; 30887; 2112; 6241; 10242; 14371;
  51660; 55789; 59790; 63919; 35144; 39273; 43274; 47403; 23285; 19156; 31415; 27286; 6769; 2640;
  14899; 10770; 56317; 52188; 64447; 60318; 39801; 35672; 47931; 43802; 27814; 31879; 19684; 23749;
  11298; 15363; 3168; 7233; 60846; 64911; 52716; 56781; 44330; 48395; 36200; 40265; 32407; 28342;
  24277; 20212; 15891; 11826; 7761; 3696; 65439; 61374; 57309; 53244; 48923; 44858; 40793; 36728;
  37256; 33193; 45514; 41451; 53516; 49453; 61774; 57711; 4224; 161; 12482; 8419; 20484; 16421; 28742;
  24679; 33721; 37784; 41979; 46042; 49981; 54044; 58239; 62302; 689; 4752; 8947; 13010; 16949; 21012;
  25207; 29270; 46570; 42443; 38312; 34185; 62830; 58703; 54572; 50445; 13538; 9411; 5280; 1153;
  29798; 25671; 21540; 17413; 42971; 47098; 34713; 38840; 59231; 63358; 50973; 55100; 9939; 14066;
  1681; 5808; 26199; 30326; 17941; 22068; 55628; 51565; 63758; 59695; 39368; 35305; 47498; 43435;
  22596; 18533; 30726; 26663; 6336; 2273; 14466; 10403; 52093; 56156; 60223; 64286; 35833; 39896;
  43963; 48026; 19061; 23124; 27191; 31254; 2801; 6864; 10931; 14994; 64814; 60687; 56684; 52557;
  48554; 44427; 40424; 36297; 31782; 27655; 23652; 19525; 15522; 11395; 7392; 3265; 61215; 65342;
  53085; 57212; 44955; 49082; 36825; 40952; 28183; 32310; 20053; 24180; 11923; 16050; 3793; 7920].

Definition lookup (t : list Z) (i : Z) : Z := nth (Z.to_nat i) t 0.

(* update_crc16_ccitt, apps/rz/crc.c:84-87.  The result is a uint16_t. *)
Definition update_crc16_ccitt (ch crc : Z) : Z :=
  Z.lxor (lookup crc16_ccitt_table (Z.lxor (Z.land (Z.shiftr crc 8) 255) ch)) (Z.shiftl crc 8) mod 65536.

(* update_crc32, apps/rz/crc.c:89-92 *)
Definition update_crc32 (ch crc : Z) : Z :=
  Z.lxor (lookup crc32_table (Z.land (Z.lxor crc ch) 255)) (Z.shiftr crc 8).

Definition CRC_START_XMODEM : Z := 0.
Definition CRC_START_32 : Z := 4294967295.

(* zm_calc_data_crc, apps/rz/zheaders.c:42-50, for the first len bytes. *)
Definition zm_calc_data_crc (data : list Z) : Z :=
  fold_left (fun crc ch => update_crc16_ccitt ch crc) data CRC_START_XMODEM.

(* zm_calc_data_crc32, apps/rz/zheaders.c:57-70, with non-zero len. *)
Definition zm_calc_data_crc32 (data : list Z) : Z :=
  let crc := fold_left (fun crc ch => update_crc32 ch crc) data CRC_START_32 in
  (- 1 - crc) mod 4294967296.

(* crc7, pico/sd_pico/crc.c:77-87.  crc stays below 128, so the index is
   below 256. *)
Definition crc7 (data : list Z) : Z :=
  fold_left (fun crc ch => lookup crc7_table (Z.lxor (Z.shiftl crc 1) ch)) data 0.

(* crc16 and update_crc16, pico/sd_pico/crc.c:89-106 *)
Definition update_crc16 (data : list Z) (crc : Z) : Z :=
  fold_left (fun crc ch =>
    Z.lxor (Z.shiftl crc 8) (lookup sd_crc16_table (Z.land (Z.lxor (Z.shiftr crc 8) ch) 255)) mod 65536) data crc.
Definition crc16 (data : list Z) : Z := update_crc16 data 0.
