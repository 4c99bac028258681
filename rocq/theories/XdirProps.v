(* The entries of files in directories of exFAT volumes. *)
From Coq Require Import String Ascii.
From Verif Require Import Base Arr LfnSpec XdirModel XdirSpec XdirProof XdirProof4 XdirProof5 XdirProof6 XdirProof7 XdirProof8 XdirProof9 XdirExample XdirExample2.
Open Scope Z_scope.

Theorem C143_file : forall tab k buf buf2 ws a f c n t, length buf = 608%nat -> length buf2 = 608%nat -> Forall unit_ok' ws -> (1 <= length ws <= 255)%nat -> meta_in a f c n t ->
  Z.of_nat k + 2 + (Z.of_nat (length ws) + 14) / 15 <= Z.of_nat (length tab) ->
  exists b1 b2 b3 b4 tab' h s names, create_xdir buf (ws ++ [0]) = Ok b1 /\ put_meta b1 (Meta a f c n t) = Ok b2 /\ store_xdir tab k b2 = Ok (tab', b3, true) /\
    entry_ok h /\ entry_ok s /\ Forall entry_ok names /\ good h s names /\ at_ h 1 = Z.of_nat (length names) + 1 /\ Z.of_nat (length names) = (Z.of_nat (length ws) + 14) / 15 /\
    placed tab' k (h :: s :: names) /\ length tab' = length tab /\
    (forall j, (j < k \/ k + 2 + length names <= j)%nat -> nth_error tab' j = nth_error tab j) /\
    load_xdir tab' k buf2 = Ok (b4, true) /\ get_meta b4 = Ok (Meta a f c n t) /\
    file_set ws h s names /\
    forall zs, Forall unit_ok' zs -> exists r, named b4 (zs ++ [0]) = Ok r /\ (r = true <-> same_name ws zs).
Proof. exact file_ok. Qed.
Print Assumptions C143_file.
Example C143_example : Forall unit_ok' name /\ (1 <= length name <= 255)%nat /\ meta_in 32 3 5 1000 1234567.
Proof. exact units_ok. Qed.

Theorem C144_valid : forall tab k h s names b, entry_ok h -> entry_ok s -> Forall entry_ok names -> placed tab k (h :: s :: names) -> length b = 608%nat ->
  at_ h 1 = Z.of_nat (length names) + 1 ->
  exists b' r, load_xdir tab k b = Ok (b', r) /\ (r = true <-> good h s names) /\
    (r = true -> b' = concat (h :: s :: names) ++ skipn (length (concat (h :: s :: names))) b).
Proof. exact load_ok. Qed.
Print Assumptions C144_valid.

Theorem C144_damage : forall tab k h s names buf h' s' names' tab' p v, entry_ok h -> entry_ok s -> Forall entry_ok names -> good h s names -> at_ h 1 = Z.of_nat (length names) + 1 ->
  entry_ok h' -> entry_ok s' -> Forall entry_ok names' -> length names' = length names ->
  placed tab k (h :: s :: names) -> placed tab' k (h' :: s' :: names') -> length buf = 608%nat ->
  (p < length (concat (h :: s :: names)))%nat -> p <> 1%nat -> byte_ok v -> v <> at_ (concat (h :: s :: names)) p ->
  concat (h' :: s' :: names') = set_at (concat (h :: s :: names)) p v ->
  (exists b, load_xdir tab k buf = Ok (b, true)) /\ (exists b, load_xdir tab' k buf = Ok (b, false)).
Proof. exact damaged. Qed.
Print Assumptions C144_damage.
Example C144_example :
  verdict (load_xdir dir1 2 (repeat 9 608)) = Some true /\ get_meta loaded = Ok facts /\
  named loaded (units "README.TXT WITH A LONG NAME" ++ [0]) = Ok true /\ named loaded (units "readme.txt with a long" ++ [0]) = Ok false /\
  verdict (load_xdir (set_at dir1 4 (set_at (nth 4 dir1 []) 6 100)) 2 (repeat 9 608)) = Some false /\
  nth 6 dir1 [] = repeat 0 32.
Proof. exact example_ok. Qed.

Theorem C144_count : forall pre h s names post v b, entry_ok h -> entry_ok s -> Forall entry_ok names -> good h s names -> at_ h 1 = Z.of_nat (length names) + 1 ->
  Z.of_nat (length names) = (at_ s 3 + 14) / 15 -> (forall e, hd_error post = Some e -> entry_ok e /\ at_ e 0 <> 193) ->
  byte_ok v -> v <> at_ h 1 -> length b = 608%nat ->
  exists b', load_xdir (pre ++ set_at h 1 v :: s :: names ++ post) (length pre) b = Ok (b', false).
Proof. exact count_damaged. Qed.
Print Assumptions C144_count.
Example C144_set : entry_ok e_h /\ entry_ok e_s /\ Forall entry_ok e_names /\ good e_h e_s e_names /\ at_ e_h 1 = Z.of_nat (length e_names) + 1 /\
  Z.of_nat (length e_names) = (at_ e_s 3 + 14) / 15 /\ dir1 = repeat (repeat 0 32) 2 ++ e_h :: e_s :: e_names ++ repeat (repeat 0 32) 2.
Proof. exact set_ok. Qed.

Theorem C145_find : forall items tab b zs, directory items tab -> length b = 608%nat -> Forall unit_ok' zs ->
  (exists before ws h s names after b', items = before ++ File ws h s names :: after /\ Forall (fun i => ~ is_named zs i) before /\ same_name ws zs /\
     dir_find_x tab b (zs ++ [0]) = Ok (Xfound (length (concat (map entries before))) b' (length (concat (map entries before)) + (length names + 1))) /\
     firstn (length (concat (h :: s :: names))) b' = concat (h :: s :: names)) \/
  (Forall (fun i => ~ is_named zs i) items /\ dir_find_x tab b (zs ++ [0]) = Ok Xnone).
Proof. exact find_ok. Qed.
Print Assumptions C145_find.
Example C145_example : directory items2 dir2 /\ place (dir_find_x dir2 (repeat 9 608) (units "README.txt with A long name" ++ [0])) = Some 2%nat /\
  dir_find_x dir2 (repeat 9 608) (units "README.txt" ++ [0]) = Ok Xnone.
Proof. exact search2. Qed.

Theorem C145_list : forall items tab b, directory items tab -> length b = 608%nat ->
  exists l, readdir_x tab b = Ok (l, true) /\ Forall2 shows l (listing 0 items).
Proof. exact list_ok. Qed.
Print Assumptions C145_list.

Theorem C145_list_damaged : forall items h s names post b, Forall item_ok items -> entry_ok h -> entry_ok s -> Forall entry_ok names -> at_ h 0 = 133 -> at_ h 1 = Z.of_nat (length names) + 1 -> ~ good h s names ->
  length b = 608%nat ->
  exists l, readdir_x (concat (map entries items) ++ (h :: s :: names) ++ post) b = Ok (l, false) /\ Forall2 shows l (listing 0 items).
Proof. exact list_bad. Qed.
Print Assumptions C145_list_damaged.
Example C145_list_example : directory items2 dir2 /\ shown (readdir_x dir2 (repeat 9 608)) = Some ([2%nat], true) /\
  shown (readdir_x (set_at dir2 4 (set_at (nth 4 dir2 []) 6 100)) (repeat 9 608)) = Some ([], false).
Proof. exact list2. Qed.

Theorem C146_remove : forall before ws h s names after tab b zs, directory (before ++ File ws h s names :: after) tab -> length b = 608%nat -> Forall unit_ok' zs ->
  Forall (fun i => ~ is_named zs i) before -> same_name ws zs ->
  exists tab', unlink_x tab b (zs ++ [0]) = Ok (tab', Some true) /\ directory (before ++ map Other (map unused (h :: s :: names)) ++ after) tab' /\ length tab' = length tab /\
    (forall j, (j < length (concat (map entries before)) \/ length (concat (map entries before)) + 2 + length names <= j)%nat -> nth_error tab' j = nth_error tab j).
Proof. exact remove_ok. Qed.
Print Assumptions C146_remove.

Theorem C146_none : forall items tab b zs, directory items tab -> length b = 608%nat -> Forall unit_ok' zs -> Forall (fun i => ~ is_named zs i) items ->
  unlink_x tab b (zs ++ [0]) = Ok (tab, None).
Proof. exact remove_none. Qed.
Print Assumptions C146_none.
Example C146_example : directory ([Other (ent 131); Other (ent 5)] ++ File name e_h e_s e_names :: [Other (ent 64)]) dir2 /\
  map (fun e => at_ e 0) dir3 = [131; 5; 5; 64; 65; 65; 64; 0; 133] /\ dir_find_x dir3 (repeat 9 608) (name ++ [0]) = Ok Xnone.
Proof. exact remove2. Qed.

Theorem C147_new : forall items rest buf ws a f c n t, Forall item_ok items -> Forall zero rest -> length buf = 608%nat -> Forall unit_ok' ws -> (1 <= length ws <= 255)%nat -> meta_in a f c n t ->
  let tab := concat (map entries items) ++ rest in let need := ((length ws + 14) / 15 + 2)%nat in
  (exists tab' before mid after h s names rest', new_x tab buf (ws ++ [0]) (Meta a f c n t) = Ok (Some tab') /\
     items = before ++ mid ++ after /\ (forall i, In i mid -> exists e, i = Other e /\ free e) /\
     file_set ws h s names /\ Forall item_ok (before ++ File ws h s names :: after) /\
     tab' = concat (map entries (before ++ File ws h s names :: after)) ++ rest' /\ Forall zero rest' /\ length tab' = length tab) \/
  (new_x tab buf (ws ++ [0]) (Meta a f c n t) = Ok None /\ forall x m y, tab = x ++ m ++ y -> length m = need -> ~ Forall free m).
Proof. exact new_ok. Qed.
Print Assumptions C147_new.
Example C147_example : Forall item_ok old3 /\ Forall zero [repeat 0 32] /\ Forall unit_ok' name /\ (1 <= length name <= 255)%nat /\ meta_in 32 3 5 1000 1234567 /\
  types (new_x (concat (map entries old3) ++ [repeat 0 32]) junk (name ++ [0]) facts) = Some [131; 133; 192; 193; 193; 65; 64; 0] /\
  new_x dir1 junk (repeat 65 60 ++ [0]) facts = Ok None.
Proof. exact new2. Qed.
