(* What an exFAT volume is, in terms of its bytes: a bitmap with one bit for each
   cluster, a FAT with four bytes for each cluster. *)
From Verif Require Import Base FatModel FatSpec XfatModel.
Open Scope Z_scope.

(* The same drive with the same FATs; what is known about the window does not depend
   on the number of clusters. *)
Definition small (g : geo) : geo :=
  mkGeo (ss g) (fatbase g) (fsize g) (n_fats g) 3 FAT32 (csize g) (database g) (volbase g) (dsize g).

Definition clusts (g : geo) : Z := n_fatent g - 2.

(* Sectors of the bitmap. *)
Definition nbm (g : geo) : Z := (clusts g - 1) / 8 / ss g + 1.
Definition in_bm (g : geo) (bb s : Z) : Prop := bb <= s < bb + nbm g.

(* A volume that fits on its drive: FAT and bitmap lie on it and are large enough,
   the bitmap does not overlap the FATs, the clusters fit on the drive. *)
Record xgeo_ok (g : geo) (bb : Z) : Prop := {
  x_geo : geo_ok (small g);
  x_ent : 2 < n_fatent g <= EOC;
  x_room : 4 * n_fatent g <= fsize g * ss g;
  x_csize : 0 < csize g;
  x_clusters : csize g * clusts g <= dsize g;
  x_bm : forall s, in_bm g bb s -> outside (small g) s }.

(* Bit k of the bitmap, for cluster k + 2: set if the cluster is in use. *)
Definition bit (g : geo) (bb : Z) (v : vol) (k : Z) : bool :=
  Z.testbit (view v (bb + k / 8 / ss g) (k / 8 mod ss g)) (k mod 8).
Definition used (g : geo) (bb : Z) (v : vol) (c : Z) : bool := bit g bb v (c - 2).

(* The four bytes of the FAT for cluster c. *)
Definition xent (g : geo) (v : vol) (c : Z) : Z :=
  fat_byte g v (4 * c) + 256 * fat_byte g v (4 * c + 1) + 65536 * fat_byte g v (4 * c + 2) + 16777216 * fat_byte g v (4 * c + 3).

(* Sectors which are neither FAT nor bitmap. *)
Definition other (g : geo) (bb s : Z) : Prop := outside (small g) s /\ ~ in_bm g bb s.
Definition same_other (g : geo) (bb : Z) (v v' : vol) : Prop :=
  forall s o, other g bb s -> 0 <= o < ss g -> view v' s o = view v s o.

(* The bits of the bitmap, with those at its end which stand for no cluster. *)
Definition bits (g : geo) : Z := nbm g * ss g * 8.
Definition same_bits (g : geo) (bb : Z) (v v' : vol) : Prop :=
  forall k, 0 <= k < bits g -> bit g bb v' k = bit g bb v k.
Definition same_ents (g : geo) (v v' : vol) : Prop :=
  forall c, 0 <= c < n_fatent g -> xent g v' c = xent g v c.

Definition xvol_ok (g : geo) (v : vol) : Prop := vol_ok (small g) v.

(* --- searching -------------------------------------------------------------------- *)

(* The n clusters from the one at distance d behind cluster s on, going round from the
   last cluster to the first, are free. *)
Definition ring (g : geo) (s d : Z) : Z := 2 + (s - 2 + d) mod clusts g.
Definition free_run (g : geo) (bb : Z) (v : vol) (s d n : Z) : Prop :=
  forall j, 0 <= j < n -> used g bb v (ring g s (d + j)) = false.

(* --- files --------------------------------------------------------------------------- *)

(* The number of clusters not in use, if known. *)
Definition busy (g : geo) (bb : Z) (v : vol) (c : Z) : Z := if used g bb v c then 1 else 0.
Definition xfree (g : geo) (bb : Z) (v : vol) : Z := count_free g (busy g bb v).

(* Clusters following each other on the disk. *)
Fixpoint run (c : Z) (l : list Z) : Prop :=
  match l with [] => True | d :: l => d = c /\ run (c + 1) l end.
Definition block (l : list Z) : Prop := run (hd 0 l) l.

Fixpoint linked_to (E : Z -> Z) (l : list Z) (e : Z) : Prop :=
  match l with
  | [] => True
  | c :: l' => E c mod 2147483648 = hd e l' /\ linked_to E l' e
  end.

(* The clusters l of a file are what its object describes:
   - contiguous, without a chain on the FAT (stat 2);
   - with a chain on the FAT (stat 0), but for the last n_frag clusters if the file is
     being written;
   - the same, but for the first fragment too (stat 3). *)
Definition described (E : Z -> Z) (o : xobj) (l : list Z) : Prop :=
  (stat o = 2 /\ n_frag o = 0 /\ block l) \/
  (exists a b c,
     l = a ++ b ++ c /\ Z.of_nat (length c) = n_frag o /\ block c /\
     linked_to E b (match c with [] => EOC | x :: _ => x end) /\
     ((stat o = 0 /\ a = []) \/
      (stat o = 3 /\ Z.of_nat (length a) = n_cont o /\ b <> [] /\ block (a ++ [hd 0 b]) /\ (2 <= length (b ++ c))%nat))).

Record xfile_ok (g : geo) (bb : Z) (v : vol) (f : xfil) (l : list Z) : Prop := {
  xf_nodup : NoDup l;
  xf_used : Forall (fun c => 2 <= c < n_fatent g /\ used g bb v c = true) l;
  xf_start : sclust (obj f) = hd 0 l;
  xf_size : objsize (obj f) = Z.of_nat (length l) * cbytes g;
  xf_desc : l <> [] -> described (xent g v) (obj f) l;
  xf_empty : l = [] -> n_frag (obj f) = 0 /\ (stat (obj f) = 0 \/ stat (obj f) = 2);
  xf_edge : n_frag (obj f) <> 0 -> clust f = last l 0 }.

(* Nothing changed but the position of the window. *)
Definition unchanged (g : geo) (bb : Z) (v v' : vol) : Prop :=
  xvol_ok g v' /\ same_bits g bb v v' /\ same_ents g v v' /\ same_other g bb v v' /\ same_info v v'.

(* Where a search starts that is asked to start at cluster c. *)
Definition origin (g : geo) (c : Z) : Z := if (2 <=? c) && (c <? n_fatent g) then c else 2.

(* Exactly the clusters from a to b - 1 are marked, as x says. *)
Definition marked (g : geo) (bb : Z) (v v' : vol) (a b : Z) (x : bool) : Prop :=
  xvol_ok g v' /\
  (forall c, 2 <= c < bits g + 2 -> used g bb v' c = if (a <=? c) && (c <? b) then x else used g bb v c) /\
  same_ents g v v' /\ same_other g bb v v'.

(* The clusters a file of n bytes takes. *)
Definition clusters_of (g : geo) (n : Z) : Z := (n + cbytes g - 1) / cbytes g.

(* The volume after an operation on a file which had the clusters l. *)
Record kept (g : geo) (bb : Z) (v v' : vol) (l : list Z) : Prop := {
  k_ok : xvol_ok g v';
  k_bits : same_bits g bb v v';
  k_ents : forall c, 0 <= c < n_fatent g -> ~ In c l -> xent g v' c = xent g v c;
  k_other : same_other g bb v v';
  k_info : same_info v v' }.

(* The volume once the clusters m of a file which had the clusters l are free. *)
Record dropped (g : geo) (bb : Z) (v v' : vol) (l m : list Z) : Prop := {
  d_ok : xvol_ok g v';
  d_gone : forall c, In c m -> used g bb v' c = false;
  d_bits : forall c, 2 <= c < bits g + 2 -> ~ In c m -> used g bb v' c = used g bb v c;
  d_ents : forall c, 0 <= c < n_fatent g -> ~ In c l -> xent g v' c = xent g v c;
  d_other : same_other g bb v v';
  d_last : last_clst v' = last_clst v;
  d_free : free_clst v + Z.of_nat (length m) <= clusts g -> free_clst v' = free_clst v + Z.of_nat (length m);
  d_unknown : clusts g < free_clst v -> free_clst v' = free_clst v }.
