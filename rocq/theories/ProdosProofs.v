(** ProdosProofs.v -- reading ProDOS volumes (C51-C53). *)
From Verif Require Import GoBase GoLemmas DiskModel DiskSpec TypesModel CodecLemmas ProdosModel ProdosSpec ProdosCodecProofs ProdosBitmapProofs.
From Coq Require Import ZifyBool ZifyNat Permutation.
Ltac Zify.zify_post_hook ::= Z.div_mod_to_equations.
Local Opaque zrange zeros sub.

(** ** Blocks *)
Definition mk_vb (d : bytes) (n : Z) : VolumeDirectoryBlock := vb_of n (blk d n).
Definition mk_sb (d : bytes) (n : Z) : SubdirectoryBlock := sb_of n (blk d n).
Definition mk_vk (d : bytes) (n : Z) : VolumeDirectoryKeyBlock := vk_of n (blk d n).
Definition mk_sk (d : bytes) (n : Z) : SubdirectoryKeyBlock := sk_of n (blk d n).
Definition mk_sub (d : bytes) (k : Z) (l : list Z) : Subdirectory := mkSub (mk_sk d k) (map (mk_sb d) l).
Lemma blk_len d n : 0 <= n -> in_dev d n -> zlen (blk d n) = 512.
Proof. intros Hn H. unfold blk, in_dev in *. rewrite zlen_sub by lia. lia. Qed.
Lemma Unm_spec {T} (From : bytes -> res T) setB d n :
  UnmarshalBlock From setB d n = if zlen d <? 512 * n + 512 then Err (EOther "device too small to read block") else (v <- From (blk d n) ;; Ok (setB n v)).
Proof. unfold UnmarshalBlock, blk. cbv zeta. replace (n * 512) with (512 * n) by lia. reflexivity. Qed.
Lemma in_dev_dec d n : {in_dev d n} + {~ in_dev d n}.
Proof. unfold in_dev. apply Z_le_dec. Qed.
Lemma Unm_off {T} (From : bytes -> res T) setB d n : ~ in_dev d n -> exists e, UnmarshalBlock From setB d n = Err e.
Proof. intros H. rewrite Unm_spec. unfold in_dev in H. replace (zlen d <? 512 * n + 512) with true by lia. eauto. Qed.
Lemma Unm_vb d n : 0 <= n -> in_dev d n -> UnmarshalBlock (VDB_FromBlock zeroVDB) VDB_SetBlock d n = Ok (mk_vb d n).
Proof. intros Hn H. rewrite Unm_spec. pose proof (blk_len d n Hn H). unfold in_dev in H. replace (zlen d <? 512 * n + 512) with false by lia. rewrite VDB_From by assumption. reflexivity. Qed.
Lemma Unm_sb d n : 0 <= n -> in_dev d n -> UnmarshalBlock (SB_FromBlock zeroSB) SB_SetBlock d n = Ok (mk_sb d n).
Proof. intros Hn H. rewrite Unm_spec. pose proof (blk_len d n Hn H). unfold in_dev in H. replace (zlen d <? 512 * n + 512) with false by lia. rewrite SB_From by assumption. reflexivity. Qed.
Lemma Unm_vk d n : 0 <= n -> in_dev d n -> UnmarshalBlock (VDKB_FromBlock zeroVDKB) VDKB_SetBlock d n = Ok (mk_vk d n).
Proof. intros Hn H. rewrite Unm_spec. pose proof (blk_len d n Hn H). unfold in_dev in H. replace (zlen d <? 512 * n + 512) with false by lia. rewrite VDKB_From by assumption. reflexivity. Qed.
Lemma Unm_sk d n : 0 <= n -> in_dev d n -> UnmarshalBlock (SKB_FromBlock zeroSKB) SKB_SetBlock d n = Ok (mk_sk d n).
Proof. intros Hn H. rewrite Unm_spec. pose proof (blk_len d n Hn H). unfold in_dev in H. replace (zlen d <? 512 * n + 512) with false by lia. rewrite SKB_From by assumption. reflexivity. Qed.

Lemma blk_bytes d n : bytes_ok d -> bytes_ok (blk d n).
Proof. apply bytes_ok_sub. Qed.
Lemma next_u16 d n : bytes_ok d -> is_u16 (next_block d n).
Proof. intros H. apply (get16_u16 (blk d n) 2). apply blk_bytes. exact H. Qed.
Lemma word_u16 b a : bytes_ok b -> is_u16 (word b a).
Proof. exact (get16_u16 b a). Qed.

(** ** Chains of blocks *)
Lemma walk_app d n l q : walk d n l q -> forall l' q', walk d q l' q' -> walk d n (l ++ l') q'.
Proof. induction 1; intros; cbn [app]; [assumption | constructor; auto]. Qed.
Lemma bchain_walk d n l : bchain d n l <-> walk d n l 0.
Proof.
  split.
  - induction 1; [constructor | constructor; assumption].
  - intros H. remember 0 as q eqn:E. induction H; subst; [constructor | constructor; auto].
Qed.
Lemma bchain_det d n l l' : bchain d n l -> bchain d n l' -> l = l'.
Proof.
  intros H. revert l'. induction H as [|n l N I B IH]; intros l' H'; inversion H'; subst; try congruence. f_equal. apply IH. assumption.
Qed.
Lemma cyclic_step d n : chain_cyclic d n -> n <> 0 /\ in_dev d n /\ chain_cyclic d (next_block d n).
Proof.
  intros (l & q & W & I). destruct W as [|n l q N D W]; [destruct I|]. split; [exact N|]. split; [exact D|].
  destruct I as [->|I]; [|exists l, q; split; [exact W | exact I]].
  exists (l ++ [q]), (next_block d q). split; [eapply walk_app; [exact W | constructor; [exact N | exact D | constructor]]|].
  apply in_or_app. inversion W; subst.
  - right. left. congruence.
  - left. left. reflexivity.
Qed.
Lemma walk_u16 d n l q : bytes_ok d -> 0 <= n -> walk d n l q -> Forall (fun x => 0 <= x /\ x <> 0 /\ in_dev d x) l /\ 0 <= q.
Proof.
  intros B Hn W. induction W; [split; [constructor | exact Hn]|]. destruct IHW as [A C]; [apply next_u16; exact B|].
  split; [constructor; auto | exact C].
Qed.
Definition vfirst (k : Z) (l : list Z) (first : list (Z * Z)) : list (Z * Z) := fold_left (fun m b => mput Z.eqb b k m) l first.
Lemma readVDB_walk d n l q : bytes_ok d -> 0 <= n -> walk d n l q -> forall k acc first fuel,
  readVDB (length l + fuel) d k n acc first = readVDB fuel d k q (acc ++ map (mk_vb d) l) (vfirst k l first).
Proof.
  intros B Hn W. induction W as [|n l q N D W IH]; intros k acc first fuel; cbn [length plus map vfirst fold_left]; [rewrite app_nil_r; reflexivity|].
  cbn [readVDB]. replace (n =? 0) with false by lia. rewrite Unm_vb by assumption. cbn [obind].
  change (vb_Next (mk_vb d n)) with (next_block d n). rewrite IH by (apply next_u16; exact B). rewrite <- app_assoc. reflexivity.
Qed.
Lemma readSB_walk d n l q : bytes_ok d -> 0 <= n -> walk d n l q -> forall acc fuel,
  readSB (length l + fuel) d n acc = readSB fuel d q (acc ++ map (mk_sb d) l).
Proof.
  intros B Hn W. induction W as [|n l q N D W IH]; intros acc fuel; cbn [length plus map]; [rewrite app_nil_r; reflexivity|].
  cbn [readSB]. replace (n =? 0) with false by lia. rewrite Unm_sb by assumption. cbn [obind].
  change (sb_Next (mk_sb d n)) with (next_block d n). rewrite IH by (apply next_u16; exact B). rewrite <- app_assoc. reflexivity.
Qed.
Lemma readVDB_chain d n l fuel k : bytes_ok d -> 0 <= n -> bchain d n l -> (length l < fuel)%nat ->
  readVDB fuel d k n [] [] = Some (Ok (map (mk_vb d) l, vfirst k l [])).
Proof.
  intros B Hn W Hf. apply bchain_walk in W. replace fuel with (length l + S (fuel - length l - 1))%nat by lia.
  rewrite (readVDB_walk _ _ _ _ B Hn W). reflexivity.
Qed.
Lemma readSB_chain d n l fuel : bytes_ok d -> 0 <= n -> bchain d n l -> (length l < fuel)%nat ->
  readSB fuel d n [] = Some (Ok (map (mk_sb d) l)).
Proof.
  intros B Hn W Hf. apply bchain_walk in W. replace fuel with (length l + S (fuel - length l - 1))%nat by lia.
  rewrite (readSB_walk _ _ _ _ B Hn W). reflexivity.
Qed.
Lemma readVDB_off d n l q fuel k : bytes_ok d -> 0 <= n -> walk d n l q -> q <> 0 -> ~ in_dev d q -> (length l < fuel)%nat ->
  exists e, readVDB fuel d k n [] [] = Some (Err e).
Proof.
  intros B Hn W N O Hf. replace fuel with (length l + S (fuel - length l - 1))%nat by lia.
  rewrite (readVDB_walk _ _ _ _ B Hn W). cbn [readVDB]. replace (q =? 0) with false by lia.
  destruct (Unm_off (VDB_FromBlock zeroVDB) VDB_SetBlock d q O) as [e ->]. cbn [obind]. eauto.
Qed.
Lemma readSB_off d n l q fuel : bytes_ok d -> 0 <= n -> walk d n l q -> q <> 0 -> ~ in_dev d q -> (length l < fuel)%nat ->
  exists e, readSB fuel d n [] = Some (Err e).
Proof.
  intros B Hn W N O Hf. replace fuel with (length l + S (fuel - length l - 1))%nat by lia.
  rewrite (readSB_walk _ _ _ _ B Hn W). cbn [readSB]. replace (q =? 0) with false by lia.
  destruct (Unm_off (SB_FromBlock zeroSB) SB_SetBlock d q O) as [e ->]. cbn [obind]. eauto.
Qed.
Lemma readVDB_cyclic d k fuel : bytes_ok d -> forall n acc first, 0 <= n -> chain_cyclic d n -> readVDB fuel d k n acc first = None.
Proof.
  intros B. induction fuel as [|fuel IH]; intros n acc first Hn C; [reflexivity|]. cbn [readVDB].
  destruct (cyclic_step d n C) as (N & D & C'). replace (n =? 0) with false by lia. rewrite Unm_vb by assumption. cbn [obind].
  apply IH; [apply (next_u16 d n B) | exact C'].
Qed.
Lemma readSB_cyclic d fuel : bytes_ok d -> forall n acc, 0 <= n -> chain_cyclic d n -> readSB fuel d n acc = None.
Proof.
  intros B. induction fuel as [|fuel IH]; intros n acc Hn C; [reflexivity|]. cbn [readSB].
  destruct (cyclic_step d n C) as (N & D & C'). replace (n =? 0) with false by lia. rewrite Unm_sb by assumption. cbn [obind].
  apply IH; [apply (next_u16 d n B) | exact C'].
Qed.

(** ** Directories *)
Lemma readSubdirectory_ok d fd l fuel : bytes_ok d -> 0 <= f_KeyPointer fd -> is_dir d (f_KeyPointer fd) l -> (length l < fuel)%nat ->
  readSubdirectory fuel d fd = Some (Ok (mk_sub d (f_KeyPointer fd) l)).
Proof.
  intros B Hk [D C] Hf. unfold readSubdirectory. rewrite Unm_sk by assumption. cbn [obind].
  change (sk_Next (mk_sk d (f_KeyPointer fd))) with (next_block d (f_KeyPointer fd)).
  rewrite (readSB_chain d _ l) by (try assumption; apply (next_u16 d _ B)). reflexivity.
Qed.
Lemma entry_len b start i n : 0 <= start -> zlen b = 512 -> start + 39 * n <= 512 -> 0 <= i < n -> zlen (entry_at b start i) = 39.
Proof. intros. unfold entry_at. rewrite zlen_sub by lia. lia. Qed.
Lemma descs_slots b start n : descs_of b start n = map pfd_of (map (entry_at b start) (zrange n)).
Proof. unfold descs_of. rewrite map_map. reflexivity. Qed.
Lemma sub_descs d k l : sd_descriptors (mk_sub d k l) = map pfd_of (dir_entries d k l).
Proof.
  unfold sd_descriptors, mk_sub, dir_entries. cbn [sd_keyBlock sd_blocks]. rewrite map_app. apply f_equal2; [apply descs_slots|].
  induction l as [|b l IH]; [reflexivity|]. cbn [map flat_map concat]. rewrite map_app, IH. apply f_equal2; [apply descs_slots | reflexivity].
Qed.
Lemma vol_descs d k l bm m1 m2 m3 : vol_descriptors (mkVol (mk_vk d k) (map (mk_vb d) l) bm m1 m2 m3) = map pfd_of (dir_entries d k l).
Proof.
  unfold vol_descriptors, dir_entries. cbn [vol_keyBlock vol_blocks]. rewrite map_app. apply f_equal2; [apply descs_slots|].
  induction l as [|b l IH]; [reflexivity|]. cbn [map flat_map concat]. rewrite map_app, IH. apply f_equal2; [apply descs_slots | reflexivity].
Qed.
Lemma filter_pfd (f : FileDescriptor -> bool) g l : (forall e, f (pfd_of e) = g e) -> filter f (map pfd_of l) = map pfd_of (filter g l).
Proof. intros H. induction l as [|e l IH]; [reflexivity|]. cbn [map filter]. rewrite H. destruct (g e); cbn [map]; rewrite IH; reflexivity. Qed.
Lemma isSubdir_of e : isSubdir (pfd_of e) = is_subdir e.
Proof. reflexivity. Qed.
Lemma sub_subdirs d k l : sd_subdirDescriptors (mk_sub d k l) = map pfd_of (filter is_subdir (dir_entries d k l)).
Proof. unfold sd_subdirDescriptors. rewrite sub_descs. apply filter_pfd, isSubdir_of. Qed.
Lemma slot_entries d k l e : bytes_ok d -> 0 <= k -> is_dir d k l -> In e (dir_entries d k l) -> zlen e = 39 /\ bytes_ok e.
Proof.
  intros B Hk [D C] H. unfold dir_entries in H. apply in_app_or in H as [H|H].
  - unfold key_slots in H. apply in_map_iff in H as (i & <- & Hi). apply In_zrange in Hi. pose proof (blk_len d k Hk D).
    split; [apply (entry_len _ 43 i 12); lia | apply bytes_ok_sub, blk_bytes; exact B].
  - apply in_concat in H as (s & Hs & He). apply in_map_iff in Hs as (b & <- & Hb). unfold later_slots in He. apply in_map_iff in He as (i & <- & Hi). apply In_zrange in Hi.
    apply bchain_walk in C. destruct (walk_u16 _ _ _ _ B (proj1 (next_u16 d k B)) C) as [F _]. rewrite Forall_forall in F. destruct (F b Hb) as (H0 & _ & Db).
    pose proof (blk_len d b H0 Db). split; [apply (entry_len _ 4 i 13); lia | apply bytes_ok_sub, blk_bytes; exact B].
Qed.
Lemma low4 x : is_byte x -> Z.land x 0xf = x mod 16.
Proof. intros _. change 15 with (Z.ones 4). rewrite Z.land_ones by lia. reflexivity. Qed.
Lemma describes_of e : zlen e = 39 -> bytes_ok e -> describes e (FD_descriptor (pfd_of e)).
Proof.
  intros L B. unfold FD_descriptor, FD_Name. split; cbn [d_name d_fullname d_sectors d_blocks d_length d_locked d_type pfd_of f_FileName f_TypeAndNameLength f_BlocksUsed f_EOF f_FileType].
  - rewrite low4 by (apply bytes_ok_znth; exact B). rewrite sub_sub by lia. f_equal; lia.
  - reflexivity.
  - split; reflexivity.
  - rewrite !znth_sub by lia. change (21 + 0) with 21. change (21 + 1) with 22. change (21 + 2) with 23. lia.
  - reflexivity.
  - reflexivity.
Qed.
Lemma live_lists d k l : bytes_ok d -> 0 <= k -> is_dir d k l -> lists d k l (Ok (live_descs (map pfd_of (dir_entries d k l)))).
Proof.
  intros B Hk D. eexists. split; [reflexivity|]. unfold live_descs. rewrite (filter_pfd _ is_live) by reflexivity. rewrite map_map.
  assert (forall x, In x (filter is_live (dir_entries d k l)) -> zlen x = 39 /\ bytes_ok x) as H
    by (intros x Hx; apply filter_In in Hx as [Hx _]; eapply slot_entries; eassumption).
  induction (filter is_live (dir_entries d k l)) as [|e es IH]; cbn [map]; constructor.
  - apply describes_of; apply H; left; reflexivity.
  - apply IH. intros x Hx. apply H. right. exact Hx.
Qed.

(** ** Maps *)
Section Maps.
  Context {K V : Type} (eqk : K -> K -> bool) (eqk_ok : forall a b, eqk a b = true <-> a = b).
  Lemma mget_In k v (m : list (K * V)) : mget eqk k m = Some v -> In (k, v) m.
  Proof.
    unfold mget. destruct (find _ m) as [[k' v']|] eqn:E; [|discriminate]. intros H. injection H as <-.
    apply find_some in E as [H1 H2]. cbn [fst] in H2. apply eqk_ok in H2. subst. exact H1.
  Qed.
  Lemma mget_None k (m : list (K * V)) : mget eqk k m = None <-> ~ In k (map fst m).
  Proof.
    unfold mget. destruct (find _ m) as [[k' v']|] eqn:E.
    - split; [discriminate|]. intros H. exfalso. apply H. apply find_some in E as [H1 H2]. cbn [fst] in H2. apply eqk_ok in H2. subst.
      apply (in_map fst) in H1. exact H1.
    - split; [|reflexivity]. intros _ H. apply in_map_iff in H as ([k' v'] & Ek & Hin). cbn [fst] in Ek. subst.
      pose proof (find_none _ _ E _ Hin) as F. cbn [fst] in F. assert (eqk k k = true) by (apply eqk_ok; reflexivity). congruence.
  Qed.
  Lemma mget_NoDup k v (m : list (K * V)) : NoDup (map fst m) -> In (k, v) m -> mget eqk k m = Some v.
  Proof.
    intros N H. destruct (mget eqk k m) as [v'|] eqn:E.
    - apply mget_In in E. f_equal. induction m as [|[a b] m IH]; [destruct H|]. cbn [map fst] in N. inversion N as [|? ? N1 N2]; subst.
      destruct H as [H|H], E as [E|E]; try congruence.
      + injection H as -> ->. exfalso. apply N1. apply (in_map fst) in E. exact E.
      + injection E as -> ->. exfalso. apply N1. apply (in_map fst) in H. exact H.
      + apply IH; assumption.
    - apply mget_None in E. exfalso. apply E. apply (in_map fst) in H. exact H.
  Qed.
  Lemma filter_all {A} (f : A -> bool) l : (forall x, In x l -> f x = true) -> filter f l = l.
  Proof. induction l as [|x l IH]; intros H; [reflexivity|]. cbn [filter]. rewrite H by (left; reflexivity). f_equal. apply IH. intros y Hy. apply H. right. exact Hy. Qed.
  Lemma mput_fresh k v (m : list (K * V)) : ~ In k (map fst m) -> mput eqk k v m = (k, v) :: m.
  Proof.
    intros H. unfold mput. f_equal. apply filter_all. intros [a b] Hin. cbn [fst]. destruct (eqk a k) eqn:E; [|reflexivity].
    apply eqk_ok in E. subst. exfalso. apply H. apply (in_map fst) in Hin. exact Hin.
  Qed.
  Definition mputs (xs : list (K * V)) (m : list (K * V)) : list (K * V) := fold_left (fun m x => mput eqk (fst x) (snd x) m) xs m.
  Lemma mputs_fresh xs : forall m, NoDup (map fst xs ++ map fst m) -> mputs xs m = rev xs ++ m.
  Proof.
    induction xs as [|[k v] xs IH]; intros m N; [reflexivity|]. cbn [mputs fold_left fst snd rev]. cbn [map fst app] in N.
    inversion N as [|? ? N1 N2]; subst. change (mputs xs (mput eqk k v m) = (rev xs ++ [(k, v)]) ++ m). rewrite mput_fresh by (intros H; apply N1, in_or_app; right; exact H).
    rewrite IH; [rewrite <- app_assoc; reflexivity|]. cbn [map fst].
    eapply Permutation_NoDup; [apply Permutation_middle|]. exact N.
  Qed.
  Lemma mput_In k v x (m : list (K * V)) : In x (mput eqk k v m) -> x = (k, v) \/ In x m.
  Proof. unfold mput. intros [H|H]; [left; auto | right; apply filter_In in H; apply H]. Qed.
  Lemma mputs_In xs : forall m x, In x (mputs xs m) -> In x xs \/ In x m.
  Proof.
    induction xs as [|[k v] xs IH]; intros m x H; [right; exact H|]. apply IH in H as [H|H]; [left; right; exact H|].
    apply mput_In in H as [->|H]; [left; left; reflexivity | right; exact H].
  Qed.
End Maps.
Lemma Zeqb_ok a b : Z.eqb a b = true <-> a = b.
Proof. lia. Qed.
Arguments mputs {K V}.

Lemma vfirst_puts k l m : vfirst k l m = mputs Z.eqb (map (fun b => (b, k)) l) m.
Proof. revert m. induction l as [|b l IH]; intros m; [reflexivity|]. cbn [vfirst fold_left map mputs fst snd]. apply IH. Qed.
Lemma record_puts d k l m : recordBlocks k (map (mk_sb d) l) m = vfirst k l m.
Proof. unfold recordBlocks, vfirst. revert m. induction l as [|b l IH]; intros m; [reflexivity|]. cbn [map fold_left]. apply IH. Qed.

(** ** The tree of directories *)
Fixpoint nodes (t : tree) : list (Z * list Z) := match t with Node k l subs => (k, l) :: flat_map nodes subs end.
Definition node_blocks (x : Z * list Z) : list Z := fst x :: snd x.
Lemma blocks_nodes t : blocks t = flat_map node_blocks (nodes t).
Proof.
  revert t. fix IH 1. intros [k l subs]. change (k :: (l ++ flat_map blocks subs) = k :: (l ++ flat_map node_blocks (flat_map nodes subs))). apply f_equal, f_equal.
  induction subs as [|s subs IHs]; [reflexivity|]. cbn [flat_map]. rewrite flat_map_app, <- IHs, <- (IH s). reflexivity.
Qed.
Definition forest_nodes (ts : list tree) : list (Z * list Z) := flat_map nodes ts.
Definition sub_entry (d : bytes) (x : Z * list Z) : Z * Subdirectory := (fst x, mk_sub d (fst x) (snd x)).
Definition block_entries (x : Z * list Z) : list (Z * Z) := map (fun b => (b, fst x)) (snd x).
Lemma mputs_app {K V} (eqk : K -> K -> bool) (a b : list (K * V)) m : mputs eqk (a ++ b) m = mputs eqk b (mputs eqk a m).
Proof. apply fold_left_app. Qed.
Lemma readSubdirs_ok d : bytes_ok d -> forall n ts q byBlock first fuel, length (forest_nodes ts) = n ->
  map f_KeyPointer q = map root ts -> (forall t, In t ts -> tree_ok d t) -> Forall (fun t => 0 <= root t) ts ->
  (length (flat_map node_blocks (forest_nodes ts)) < fuel)%nat ->
  exists xs, Permutation xs (forest_nodes ts) /\
    readSubdirs fuel d q byBlock first = Some (Ok (mputs Z.eqb (map (sub_entry d) xs) byBlock, mputs Z.eqb (flat_map block_entries xs) first)).
Proof.
  intros B. induction n as [|n IH]; intros ts q byBlock first fuel Hn Hq Ht Hr Hf.
  - destruct ts as [|[k l subs] ts]; [|discriminate]. destruct q; [|discriminate]. exists []. split; [constructor|]. destruct fuel; [lia | reflexivity].
  - destruct ts as [|[k l subs] ts]; [discriminate|]. destruct q as [|sdd q]; [discriminate|]. cbn [map root] in Hq. injection Hq as Hk Hq.
    cbn [forest_nodes flat_map nodes] in Hn, Hf. inversion Hr as [|? ? R1 R2]; subst. cbn [root] in R1.
    specialize (Ht (Node (f_KeyPointer sdd) l subs) (or_introl eq_refl)) as T. inversion T as [? ? ? D E P HS]; subst.
    cbn [app flat_map node_blocks fst snd length] in Hf, Hn. rewrite !flat_map_app, !app_length in Hf. rewrite app_length in Hn.
    destruct fuel as [|fuel]; [lia|]. cbn [readSubdirs].
    rewrite (readSubdirectory_ok d sdd l (S fuel) B R1 D) by lia. cbn [obind sd_blocks mk_sub].
    assert (forall e, In e (filter is_subdir (dir_entries d (f_KeyPointer sdd) l)) -> is_u16 (key_pointer e)) as U.
    { intros e He. apply filter_In in He as [He _]. apply word_u16. eapply slot_entries; eassumption. }
    destruct (IH (ts ++ subs) (q ++ sd_subdirDescriptors (mk_sub d (f_KeyPointer sdd) l))
               (mput Z.eqb (f_KeyPointer sdd) (mk_sub d (f_KeyPointer sdd) l) byBlock)
               (recordBlocks (f_KeyPointer sdd) (map (mk_sb d) l) first) fuel) as (xs & Px & Ex).
    + unfold forest_nodes. rewrite flat_map_app, app_length. lia.
    + rewrite !map_app, Hq. f_equal. rewrite sub_subdirs, map_map. exact E.
    + intros t Hin. apply in_app_or in Hin as [Hin|Hin]; [apply Ht; right; exact Hin | apply HS; exact Hin].
    + apply Forall_app. split; [exact R2|]. rewrite <- (Forall_map root (fun r => 0 <= r)). rewrite <- E. apply Forall_map, Forall_forall. intros e He. apply (U e He).
    + unfold forest_nodes. rewrite !flat_map_app, app_length. lia.
    + exists ((f_KeyPointer sdd, l) :: xs). split.
      { cbn [forest_nodes flat_map nodes app]. constructor. rewrite Px. unfold forest_nodes. rewrite flat_map_app. apply Permutation_app_comm. }
      etransitivity; [exact Ex|]. cbn [map flat_map]. rewrite mputs_app, record_puts, vfirst_puts. reflexivity.
Qed.

(** ** Full names *)
Section Names.
  Variables (d : bytes) (byBlock : list (Z * Subdirectory)) (first : list (Z * Z)).
  (** The maps lead from every block of the directory to the directory. *)
  Definition found (k : Z) (l : list Z) : Prop := forall b, In b (k :: l) -> b <> 2 /\ mget Z.eqb b first <> Some 2 /\
    match mget Z.eqb b byBlock with
    | Some sd => Some sd
    | None => match mget Z.eqb b first with Some p => mget Z.eqb p byBlock | None => None end
    end = Some (mk_sub d k l).
  Definition named (b : Z) (p : bytes) (n : nat) : Prop := forall fuel, (n <= fuel)%nat -> parentDirName fuel b 2 byBlock first = Some (Ok p).
  Lemma header_name_of k l : bytes_ok d -> 0 <= k -> in_dev d k -> SH_Name (sk_Header (sd_keyBlock (mk_sub d k l))) = header_name d k.
  Proof.
    intros B Hk D. pose proof (blk_len d k Hk D). pose proof (bytes_ok_znth (blk d k) 4 (blk_bytes d k B)) as Hb. unfold is_byte in Hb.
    unfold SH_Name, header_name. cbn [mk_sub sd_keyBlock mk_sk sk_of sk_Header sh_of sh_SubdirectoryName sh_TypeAndNameLength].
    rewrite znth_sub by lia. change (4 + 0) with 4. rewrite low4 by (unfold is_byte; lia). rewrite !sub_sub by lia. f_equal; lia.
  Qed.
  Lemma parent_of k l : 0 <= k -> in_dev d k -> sh_ParentPointer (sk_Header (sd_keyBlock (mk_sub d k l))) = parent_pointer d k.
  Proof.
    intros Hk D. pose proof (blk_len d k Hk D). cbn [mk_sub sd_keyBlock mk_sk sk_of sk_Header sh_of sh_ParentPointer].
    unfold parent_pointer, word, get16, le16. rewrite !znth_sub by lia. reflexivity.
  Qed.
  Lemma join_eq p (n : bytes) : (if zlen p =? 0 then n else p ++ s2b "/" ++ n) = join p n.
  Proof. destruct p as [|c p]; [reflexivity|]. cbn [join]. rewrite zlen_cons. pose proof (zlen_nonneg p). replace (1 + zlen p =? 0) with false by lia. reflexivity. Qed.
  Lemma named_step k l p n b : bytes_ok d -> 0 <= k -> in_dev d k -> found k l -> named (parent_pointer d k) p n -> In b (k :: l) -> named b (join p (header_name d k)) (S n).
  Proof.
    intros B Hk D F N Hb fuel Hf. destruct fuel as [|fuel]; [lia|]. cbn [parentDirName]. destruct (F b Hb) as (N2 & M2 & E).
    replace (b =? 2) with false by lia.
    replace (match mget Z.eqb b first with Some b0 => b0 | None => 0 end =? 2) with false
      by (destruct (mget Z.eqb b first) as [z|]; [|reflexivity]; symmetry; apply Z.eqb_neq; intros ->; apply M2; reflexivity).
    cbn [orb]. cbv zeta. rewrite E. rewrite parent_of by assumption. rewrite (N fuel ltac:(lia)). cbn [obind].
    rewrite header_name_of by assumption. rewrite <- join_eq. destruct (zlen p =? 0); reflexivity.
  Qed.
  (** A directory below [s] (whose path is [p]): its path and that of its parent. *)
  Lemma paths_named s : bytes_ok d -> tree_ok d s -> forall p n, 0 <= root s ->
    (forall b, In b (match s with Node k l _ => k :: l end) -> named b p n) ->
    (forall x, In x (flat_map nodes (match s with Node _ _ subs => subs end)) -> found (fst x) (snd x)) ->
    forall q k l, In (q, (k, l)) (paths d p s) -> (forall b, In b (k :: l) -> named b q (n + length (blocks s))) /\ is_dir d k l /\ 0 <= k /\
      ((q, (k, l)) = (p, match s with Node k0 l0 _ => (k0, l0) end) \/
       exists p', named (parent_pointer d k) p' (n + length (blocks s)) /\ q = join p' (header_name d k)).
  Proof.
    intros B T. induction T as [k l subs D E P HS IH]. intros p n Hr Hn Hfound q k' l' Hin. cbn [root] in Hr. cbn [paths] in Hin. destruct Hin as [Hin|Hin].
    - injection Hin as <- <- <-. split; [intros b Hb fuel Hf; apply Hn; [exact Hb | lia]|]. split; [exact D|]. split; [exact Hr|]. left. reflexivity.
    - apply in_flat_map in Hin as (s & Hs & Hin). pose proof (HS s Hs) as Ts. destruct s as [ks ls subss] eqn:Es. cbn [root] in Hin.
      assert (0 <= ks) as Hks.
      { assert (In ks (map root subs)) as H by (change ks with (root (Node ks ls subss)); apply in_map; exact Hs). rewrite <- E in H.
        apply in_map_iff in H as (e & <- & He). apply filter_In in He as [He _]. apply word_u16. eapply slot_entries; eassumption. }
      inversion Ts as [? ? ? Ds Es' Ps Ss]; subst. pose proof (P _ Hs) as Pp. cbn [root] in Pp.
      assert (forall x, In x (nodes (Node ks ls subss)) -> In x (flat_map nodes subs)) as Sub by (intros x Hx; apply in_flat_map; eexists; split; [exact Hs | exact Hx]).
      assert (found ks ls) as Fs by (apply (Hfound (ks, ls)), Sub; left; reflexivity).
      assert (forall b, In b (ks :: ls) -> named b (join p (header_name d ks)) (S n)) as Ns
        by (intros b Hb; apply (named_step ks ls); try assumption; [apply Ds | apply Hn; exact Pp]).
      destruct (IH _ Hs (join p (header_name d ks)) (S n) Hks Ns) with (q := q) (k := k') (l := l') as (A1 & A2 & A3 & A4).
      { intros x Hx. apply Hfound, Sub. right. exact Hx. }
      { exact Hin. }
      assert (length (blocks (Node ks ls subss)) <= length (flat_map blocks subs))%nat as Hlen.
      { clear -Hs. induction subs as [|s0 subs IHs]; [destruct Hs|]. cbn [flat_map]. rewrite app_length. destruct Hs as [->|Hs]; [lia|]. specialize (IHs Hs). lia. }
      assert (S n + length (blocks (Node ks ls subss)) <= n + length (blocks (Node k l subs)))%nat as Hle.
      { cbn [blocks length] in *. rewrite !app_length in *. lia. }
      split; [intros b Hb fuel Hf; apply A1; [exact Hb | lia]|]. split; [exact A2|]. split; [exact A3|]. right.
      destruct A4 as [A4|(p' & N' & Eq)].
      + injection A4 as -> -> ->. exists p. split; [|reflexivity]. intros fuel Hf. apply (Hn _ Pp). lia.
      + exists p'. split; [|exact Eq]. intros fuel Hf. apply N'. lia.
  Qed.
  (** Computing all names. *)
  Definition name_of (sd : Subdirectory) (p : bytes) : Prop := exists n, forall fuel, (n <= fuel)%nat ->
    parentDirName fuel (sh_ParentPointer (sk_Header (sd_keyBlock sd))) 2 byBlock first = Some (Ok p).
  Lemma nameSubdirs_spec fuel sds : forall byName,
    nameSubdirs fuel 2 byBlock first sds byName =
    match sds with
    | [] => Some (Ok byName)
    | x :: rest => pn <~ parentDirName fuel (sh_ParentPointer (sk_Header (sd_keyBlock (snd x)))) 2 byBlock first ;;
        nameSubdirs fuel 2 byBlock first rest (mput beq (join pn (SH_Name (sk_Header (sd_keyBlock (snd x))))) (snd x) byName)
    end.
  Proof.
    destruct sds as [|[k sd] rest]; intros byName; [reflexivity|]. cbn [nameSubdirs snd].
    destruct (parentDirName fuel _ 2 byBlock first) as [[pn|e|]|]; try reflexivity. cbn [obind]. rewrite <- join_eq. destruct (zlen pn =? 0); reflexivity.
  Qed.
End Names.

Lemma NoDup_app_r {A} (a b : list A) : NoDup (a ++ b) -> NoDup b.
Proof. induction a as [|x a IH]; cbn [app]; intros H; [exact H|]. inversion H; auto. Qed.
Lemma NoDup_app_l {A} (a b : list A) : NoDup (a ++ b) -> NoDup a.
Proof.
  induction a as [|x a IH]; cbn [app]; intros H; [constructor|]. inversion H; subst. constructor; [|auto].
  intros Hin. apply H2, in_or_app. left. exact Hin.
Qed.
Lemma flat_unique {A B} (f : A -> list B) L x y b : NoDup (flat_map f L) -> In x L -> In y L -> In b (f x) -> In b (f y) -> x = y.
Proof.
  induction L as [|z L IH]; intros N Hx Hy Bx By; [destruct Hx|]. cbn [flat_map] in N. apply NoDup_app_r in N as N2.
  assert (forall w, In b (f w) -> In w L -> ~ In b (f z)) as Dis.
  { intros w Hw Hin Hz. clear -N Hw Hin Hz. induction (f z) as [|c fz IHz]; [destruct Hz|]. cbn [app] in N. inversion N as [|? ? N1 N3]; subst.
    destruct Hz as [->|Hz]; [apply N1, in_or_app; right; apply in_flat_map; eauto | apply IHz; assumption]. }
  destruct Hx as [->|Hx], Hy as [->|Hy]; [reflexivity | exfalso; exact (Dis y By Hy Bx) | exfalso; exact (Dis x Bx Hx By) | apply IH; assumption].
Qed.
Lemma flat_inner {A B} (f : A -> list B) L x : NoDup (flat_map f L) -> In x L -> NoDup (f x).
Proof.
  induction L as [|z L IH]; intros N H; [destruct H|]. destruct H as [->|H]; cbn [flat_map] in N; [apply NoDup_app_l in N; exact N | apply IH; [apply NoDup_app_r in N; exact N | exact H]].
Qed.
Lemma flat_NoDup {A B C} (f : A -> list B) (g : A -> list C) (h : C -> B) L : NoDup (flat_map f L) -> (forall x c, In c (g x) -> In (h c) (f x)) -> (forall x, In x L -> NoDup (map h (g x))) -> NoDup (map h (flat_map g L)).
Proof.
  intros N H. induction L as [|x L IH]; intros G; [constructor|]. cbn [flat_map] in *. rewrite map_app.
  assert (NoDup (map h (flat_map g L))) as N2 by (apply IH; [apply NoDup_app_r in N; exact N | intros y Hy; apply G; right; exact Hy]).
  assert (forall b, In b (f x) -> In b (flat_map f L) -> False) as Dis.
  { clear -N. intros b Hb Hf. induction (f x) as [|c fx IHx]; [destruct Hb|]. cbn [app] in N. inversion N as [|? ? N1 N3]; subst.
    destruct Hb as [->|Hb]; [apply N1, in_or_app; right; exact Hf | apply IHx; assumption]. }
  specialize (G x (or_introl eq_refl)).
  assert (forall b, In b (map h (g x)) -> ~ In b (map h (flat_map g L))) as Dis2.
  { intros b Hb Hb2. apply in_map_iff in Hb as (c & <- & Hc). apply in_map_iff in Hb2 as (c2 & E & Hc2). apply in_flat_map in Hc2 as (y & Hy & Hc2).
    apply (Dis (h c)); [apply H; exact Hc|]. apply in_flat_map. exists y. split; [exact Hy|]. rewrite <- E. apply H. exact Hc2. }
  clear -G N2 Dis2. induction (map h (g x)) as [|b l IHl]; [exact N2|]. cbn [app]. inversion G; subst. constructor.
  - intros Hin. apply in_app_or in Hin as [Hin|Hin]; [contradiction | exact (Dis2 b (or_introl eq_refl) Hin)].
  - apply IHl; [assumption | intros c Hc; apply Dis2; right; exact Hc].
Qed.

Lemma paths_nodes d : forall t p, map snd (paths d p t) = nodes t.
Proof.
  fix IH 1. intros [k l subs] p. cbn [paths nodes map snd]. f_equal. induction subs as [|s subs IHs]; [reflexivity|].
  cbn [flat_map]. rewrite map_app, IHs, (IH s). reflexivity.
Qed.
Lemma nameSubdirs_ok byBlock first fuel sds ys : Forall2 (fun x y => exists pn,
    parentDirName fuel (sh_ParentPointer (sk_Header (sd_keyBlock (snd x)))) 2 byBlock first = Some (Ok pn) /\
    y = (join pn (SH_Name (sk_Header (sd_keyBlock (snd x)))), snd x)) sds ys ->
  forall byName, nameSubdirs fuel 2 byBlock first sds byName = Some (Ok (mputs beq ys byName)).
Proof.
  induction 1 as [|x y sds ys (pn & E & ->) F IH]; intros byName; rewrite nameSubdirs_spec; [reflexivity|].
  rewrite E. cbn [obind]. rewrite IH. reflexivity.
Qed.

Definition subpaths (d : bytes) (t : tree) : list (bytes * (Z * list Z)) := tl (paths d [] t).
Definition later (t : tree) : list Z := match t with Node _ l _ => l end.
Definition children (t : tree) : list tree := match t with Node _ _ s => s end.
Lemma subpaths_nodes d t : map snd (subpaths d t) = flat_map nodes (children t).
Proof.
  unfold subpaths. transitivity (tl (map snd (paths d [] t))); [destruct (paths d [] t); reflexivity|]. rewrite paths_nodes. destruct t; reflexivity.
Qed.
Definition named_sub (d : bytes) (y : bytes * (Z * list Z)) : bytes * Subdirectory := (fst y, mk_sub d (fst (snd y)) (snd (snd y))).
Lemma bitmap_ok d : bytes_ok d -> zlen d <= 65536 * 512 -> bitmap_on_device d -> in_dev d 2 ->
  exists bm, readVolumeBitMap d (vh_BitMapPointer (vk_Header (mk_vk d 2))) = Ok bm.
Proof.
  intros B L H D. assert (vh_BitMapPointer (vk_Header (mk_vk d 2)) = word (blk d 2) 0x27) as ->.
  { pose proof (blk_len d 2 ltac:(lia) D). cbn [mk_vk vk_of vk_Header vh_of vh_BitMapPointer]. unfold word, get16, le16. rewrite !znth_sub by lia. reflexivity. }
  pose proof (word_u16 (blk d 2) 0x27 (blk_bytes d 2 B)) as U. destruct (Z.ltb_spec (zlen d) (4096 * 512)).
  - rewrite read_small by assumption. eauto.
  - rewrite read_big by (try assumption; lia). unfold bitmap_on_device, in_dev in H. specialize (H ltac:(lia)). replace (zlen d <? 512 * word (blk d 2) 0x27 + 512) with false by lia. eauto.
Qed.

(** ** More fuel does not change a result *)
Lemma readSB_mono d fuel : forall n acc r, readSB fuel d n acc = Some r -> forall fuel', (fuel <= fuel')%nat -> readSB fuel' d n acc = Some r.
Proof.
  induction fuel as [|fuel IH]; intros n acc r H fuel' Hf; [discriminate|]. destruct fuel' as [|fuel']; [lia|]. cbn [readSB] in *.
  destruct (n =? 0); [exact H|]. destruct (UnmarshalBlock _ _ d n); cbn [obind] in *; try exact H. apply (IH _ _ _ H). lia.
Qed.
Lemma readVDB_mono d k fuel : forall n acc first r, readVDB fuel d k n acc first = Some r -> forall fuel', (fuel <= fuel')%nat -> readVDB fuel' d k n acc first = Some r.
Proof.
  induction fuel as [|fuel IH]; intros n acc first r H fuel' Hf; [discriminate|]. destruct fuel' as [|fuel']; [lia|]. cbn [readVDB] in *.
  destruct (n =? 0); [exact H|]. destruct (UnmarshalBlock _ _ d n); cbn [obind] in *; try exact H. apply (IH _ _ _ _ H). lia.
Qed.
Lemma readSubdirectory_mono d fd fuel r : readSubdirectory fuel d fd = Some r -> forall fuel', (fuel <= fuel')%nat -> readSubdirectory fuel' d fd = Some r.
Proof.
  unfold readSubdirectory. destruct (UnmarshalBlock _ _ d _) as [v| |]; cbn [obind]; intros H fuel' Hf; try exact H.
  destruct (readSB fuel d (sk_Next v) []) as [x|] eqn:E; [|discriminate]. rewrite (readSB_mono _ _ _ _ _ E _ Hf). exact H.
Qed.
Lemma readSubdirs_mono d fuel : forall q byBlock first r, readSubdirs fuel d q byBlock first = Some r -> forall fuel', (fuel <= fuel')%nat -> readSubdirs fuel' d q byBlock first = Some r.
Proof.
  induction fuel as [|fuel IH]; intros q byBlock first r H fuel' Hf; [discriminate|]. destruct fuel' as [|fuel']; [lia|]. cbn [readSubdirs] in *.
  destruct q as [|sdd q]; [exact H|]. destruct (readSubdirectory (S fuel) d sdd) as [x|] eqn:E; [|discriminate].
  rewrite (readSubdirectory_mono _ _ _ _ E _ Hf). destruct x; cbn [obind] in *; try exact H. apply (IH _ _ _ _ H). lia.
Qed.
Lemma parentDirName_mono byBlock first k fuel : forall b r, parentDirName fuel b k byBlock first = Some r -> forall fuel', (fuel <= fuel')%nat -> parentDirName fuel' b k byBlock first = Some r.
Proof.
  induction fuel as [|fuel IH]; intros b r H fuel' Hf; [discriminate|]. destruct fuel' as [|fuel']; [lia|]. cbn [parentDirName] in *.
  destruct (_ || _); [exact H|]. cbv zeta in *. destruct (match mget Z.eqb b byBlock with Some sd => Some sd | None => _ end) as [sd|]; [|exact H].
  destruct (parentDirName fuel _ k byBlock first) as [x|] eqn:E; [|discriminate]. rewrite (IH _ _ E fuel' ltac:(lia)). exact H.
Qed.
Lemma nameSubdirs_mono byBlock first k fuel sds : forall byName r, nameSubdirs fuel k byBlock first sds byName = Some r -> forall fuel', (fuel <= fuel')%nat -> nameSubdirs fuel' k byBlock first sds byName = Some r.
Proof.
  induction sds as [|[b sd] sds IH]; intros byName r H fuel' Hf; [exact H|]. cbn [nameSubdirs] in *.
  destruct (parentDirName fuel _ k byBlock first) as [x|] eqn:E; [|discriminate]. rewrite (parentDirName_mono _ _ _ _ _ _ E fuel' Hf).
  destruct x; cbn [obind] in *; try exact H. apply (IH _ _ H fuel' Hf).
Qed.
Lemma readVolume_mono iter d k fuel r : readVolume iter fuel d k = Some r -> forall fuel', (fuel <= fuel')%nat -> readVolume iter fuel' d k = Some r.
Proof.
  unfold readVolume. intros H fuel' Hf. destruct (UnmarshalBlock _ _ d k); cbn [obind] in *; try exact H.
  destruct (readVolumeBitMap d _); cbn [obind] in *; try exact H.
  destruct (readVDB fuel d k _ [] []) as [x|] eqn:E; [|discriminate]. rewrite (readVDB_mono _ _ _ _ _ _ _ E _ Hf). destruct x as [[blocks first]| |]; cbn [obind] in *; try exact H.
  destruct (readSubdirs fuel d _ [] first) as [x|] eqn:E2; [|discriminate]. rewrite (readSubdirs_mono _ _ _ _ _ _ E2 _ Hf). destruct x as [[byBlock first2]| |]; cbn [obind] in *; try exact H.
  destruct (nameSubdirs fuel k byBlock first2 _ []) as [x|] eqn:E3; [|discriminate]. rewrite (nameSubdirs_mono _ _ _ _ _ _ _ E3 _ Hf). exact H.
Qed.
Lemma Catalog_mono iter d p fuel r : Catalog iter fuel d p = Some r -> forall fuel', (fuel <= fuel')%nat -> Catalog iter fuel' d p = Some r.
Proof.
  unfold Catalog. intros H fuel' Hf. destruct (readVolume iter fuel d 2) as [x|] eqn:E; [|discriminate]. rewrite (readVolume_mono _ _ _ _ _ E _ Hf). exact H.
Qed.
Lemma returns_mono {A} (f : nat -> option A) (P : A -> Prop) : (forall fuel r, f fuel = Some r -> forall fuel', (fuel <= fuel')%nat -> f fuel' = Some r) ->
  forall fuel r, f fuel = Some r -> P r -> returns f P.
Proof. intros M fuel r E H. exists fuel, r. split; [exact H | intros k Hk; exact (M _ _ E _ Hk)]. Qed.

(** ** Well-formed volumes *)
Lemma readVolume_order d t iter : well_formed d t -> an_order iter -> exists fuel bm byBlock first tl', Permutation tl' (subpaths d t) /\
  NoDup (map fst byBlock) /\ iter byBlock = map (fun y => sub_entry d (snd y)) tl' /\
  readVolume iter fuel d 2 =
    Some (Ok (mkVol (mk_vk d 2) (map (mk_vb d) (later t)) bm byBlock (mputs beq (map (named_sub d) tl') []) first)).
Proof.
  intros [B L Bm R T N] Ho. destruct t as [k0 l0 subs]. cbn [root] in R. subst k0. cbn [later].
  inversion T as [? ? ? D E P HS]; subst. destruct D as [D2 C2].
  destruct (bitmap_ok d B L Bm D2) as [bm Eb].
  rewrite blocks_nodes in N. set (n0 := S (length (flat_map node_blocks (nodes (Node 2 l0 subs))))).
  assert (forall e, In e (filter is_subdir (dir_entries d 2 l0)) -> is_u16 (key_pointer e)) as U.
  { intros e He. apply filter_In in He as [He _]. apply word_u16. apply (slot_entries d 2 l0 e B ltac:(lia) (conj D2 C2) He). }
  destruct (readSubdirs_ok d B _ subs (map pfd_of (filter is_subdir (dir_entries d 2 l0))) [] (vfirst 2 l0 []) n0 eq_refl) as (xs & Px & Ex).
  { rewrite map_map. exact E. }
  { exact HS. }
  { rewrite <- (Forall_map root (fun r => 0 <= r)). rewrite <- E. apply Forall_map, Forall_forall. intros e He. apply (U e He). }
  { unfold n0. cbn [nodes flat_map]. rewrite app_length. unfold forest_nodes. lia. }
  set (all := (2, l0) :: xs).
  assert (NoDup (flat_map node_blocks all)) as Na.
  { eapply Permutation_NoDup; [|exact N]. cbn [nodes]. unfold all. apply Permutation_flat_map. constructor. symmetry. exact Px. }
  assert (Permutation all (nodes (Node 2 l0 subs))) as Pall by (cbn [nodes]; constructor; exact Px).
  assert (NoDup (map fst (map (sub_entry d) xs))) as Nk.
  { pose proof (flat_NoDup node_blocks (fun x => [fst x]) id all Na) as H. assert (NoDup (map id (flat_map (fun x => [fst x]) all))) as H1.
    { apply H; [intros x c [<-|[]]; left; reflexivity | intros; repeat constructor; intros []]. }
    rewrite map_id in H1. cbn [all flat_map app] in H1. inversion H1 as [|? ? _ H2]; subst. rewrite map_map.
    replace (map (fun x => fst (sub_entry d x)) xs) with (flat_map (fun x : Z * list Z => [fst x]) xs); [exact H2|].
    clear. induction xs as [|x xs IH]; [reflexivity|]. cbn [flat_map app map]. rewrite IH. reflexivity. }
  assert (NoDup (map fst (flat_map block_entries all))) as Nf.
  { apply (flat_NoDup node_blocks block_entries fst all Na).
    - intros x c Hc. unfold block_entries in Hc. apply in_map_iff in Hc as (b & <- & Hb). right. exact Hb.
    - intros x Hx. unfold block_entries. rewrite map_map. cbn [fst]. rewrite map_id. pose proof (flat_inner _ _ _ Na Hx) as Hi. inversion Hi; assumption. }
  assert (mputs Z.eqb (map (sub_entry d) xs) [] = rev (map (sub_entry d) xs)) as Eby.
  { rewrite (mputs_fresh Z.eqb Zeqb_ok); [apply app_nil_r | cbn [map]; rewrite app_nil_r; exact Nk]. }
  assert (mputs Z.eqb (flat_map block_entries xs) (vfirst 2 l0 []) = rev (flat_map block_entries all)) as Efi.
  { rewrite vfirst_puts, <- mputs_app. change (map (fun b => (b, 2)) l0 ++ flat_map block_entries xs) with (flat_map block_entries all).
    rewrite (mputs_fresh Z.eqb Zeqb_ok); [apply app_nil_r | cbn [map]; rewrite app_nil_r; exact Nf]. }
  set (byBlock := mputs Z.eqb (map (sub_entry d) xs) []) in *. set (first := mputs Z.eqb (flat_map block_entries xs) (vfirst 2 l0 [])) in *.
  assert (forall x, In x xs -> mget Z.eqb (fst x) byBlock = Some (mk_sub d (fst x) (snd x))) as Gk.
  { intros x Hx. apply (mget_NoDup Z.eqb Zeqb_ok); rewrite Eby; [rewrite map_rev; apply (Permutation_NoDup (Permutation_rev _)); exact Nk|].
    apply -> in_rev. apply (in_map (sub_entry d)) in Hx. exact Hx. }
  assert (forall x b, In x all -> In b (snd x) -> mget Z.eqb b first = Some (fst x)) as Gf.
  { intros x b Hx Hb. apply (mget_NoDup Z.eqb Zeqb_ok); rewrite Efi; [rewrite map_rev; apply (Permutation_NoDup (Permutation_rev _)); exact Nf|].
    apply -> in_rev. apply in_flat_map. exists x. split; [exact Hx|]. unfold block_entries. apply (in_map (fun b => (b, fst x))). exact Hb. }
  assert (forall x, In x xs -> found d byBlock first (fst x) (snd x)) as Fd.
  { intros x Hx b Hb. assert (In x all) as Hxa by (right; exact Hx). assert (In (2, l0) all) as H2a by (left; reflexivity).
    assert (x <> (2, l0)) as Nx.
    { intros ->. cbn [all flat_map node_blocks fst snd app] in Na. inversion Na as [|? ? N1 _]; subst. apply N1, in_or_app. right. apply in_flat_map. exists (2, l0). split; [exact Hx | left; reflexivity]. }
    split; [|split].
    - intros ->. apply Nx. apply (flat_unique node_blocks all _ _ 2 Na Hxa H2a Hb). left. reflexivity.
    - intros H. apply (mget_In Z.eqb Zeqb_ok) in H. rewrite Efi in H. apply in_rev in H. apply in_flat_map in H as (y & Hy & Hb2).
      unfold block_entries in Hb2. apply in_map_iff in Hb2 as (b' & Eb' & Hb'). injection Eb' as -> Ey.
      assert (y = (2, l0)) as -> by (apply (flat_unique node_blocks all _ _ 2 Na Hy H2a); [left; exact Ey | left; reflexivity]).
      apply Nx. apply (flat_unique node_blocks all _ _ b Na Hxa H2a Hb). right. exact Hb'.
    - destruct Hb as [<-|Hb]; [rewrite (Gk x Hx); reflexivity|].
      replace (mget Z.eqb b byBlock) with (@None Subdirectory).
      + rewrite (Gf x b Hxa Hb). apply Gk. exact Hx.
      + symmetry. apply (mget_None Z.eqb Zeqb_ok). intros H. rewrite Eby, map_rev in H. apply in_rev in H. rewrite map_map in H. apply in_map_iff in H as (y & Ey & Hy). cbn [sub_entry fst] in Ey.
        assert (y = x) as -> by (apply (flat_unique node_blocks all y x b Na); [right; exact Hy | exact Hxa | left; exact Ey | right; exact Hb]).
        pose proof (flat_inner _ _ _ Na Hxa) as Hi. cbn [node_blocks] in Hi. inversion Hi as [|? ? Hi1 _]; subst. contradiction. }
  assert (forall b, In b (2 :: l0) -> named byBlock first b [] 1) as Nroot.
  { intros b Hb fuel Hf. destruct fuel as [|fuel]; [lia|]. cbn [parentDirName]. destruct Hb as [<-|Hb]; [reflexivity|].
    rewrite (Gf (2, l0) b (or_introl eq_refl) Hb). cbn [fst]. rewrite Z.eqb_refl, orb_true_r. reflexivity. }
  set (n1 := (1 + length (blocks (Node 2 l0 subs)))%nat).
  pose proof (paths_named d byBlock first (Node 2 l0 subs) B T [] 1 ltac:(cbn; lia) Nroot) as Pn.
  assert (forall x, In x (flat_map nodes subs) -> In x xs) as Sx by (intros x Hx; eapply Permutation_in; [symmetry; exact Px | exact Hx]).
  specialize (Pn (fun x Hx => Fd x (Sx x Hx))).
  (* the iteration *)
  assert (Permutation (iter byBlock) (map (fun y => sub_entry d (snd y)) (subpaths d (Node 2 l0 subs)))) as Pit.
  { etransitivity; [apply Ho|]. rewrite Eby. etransitivity; [symmetry; apply Permutation_rev|]. rewrite <- (map_map snd (sub_entry d)). apply Permutation_map.
    rewrite subpaths_nodes. exact Px. }
  apply Permutation_map_inv in Pit as (tl' & Eit & Ptl). symmetry in Ptl.
  set (fuel := (n0 + n1 + S (length l0))%nat).
  assert (forall y, In y tl' -> exists pn, parentDirName fuel (parent_pointer d (fst (snd y))) 2 byBlock first = Some (Ok pn) /\ fst y = join pn (header_name d (fst (snd y))) /\ is_dir d (fst (snd y)) (snd (snd y)) /\ 0 <= fst (snd y)) as Hy.
  { intros [q [k l]] Hin. assert (In (q, (k, l)) (subpaths d (Node 2 l0 subs))) as Hs by (eapply Permutation_in; [exact Ptl | exact Hin]).
    assert (In (q, (k, l)) (paths d [] (Node 2 l0 subs))) as Hp by (right; exact Hs).
    destruct (Pn q k l Hp) as (_ & Dk & Hk & [A|(pn & A & Eq)]).
    - exfalso. injection A as -> -> ->. assert (In (2, l0) (flat_map nodes subs)) as H2.
      { apply (in_map snd) in Hs. rewrite subpaths_nodes in Hs. exact Hs. }
      apply Sx in H2. cbn [all flat_map node_blocks fst snd app] in Na. inversion Na as [|? ? N1 _]; subst. apply N1, in_or_app. right. apply in_flat_map. exists (2, l0). split; [exact H2 | left; reflexivity].
    - exists pn. cbn [fst snd]. split; [apply A; unfold fuel, n1; lia|]. split; [exact Eq|]. split; [exact Dk | exact Hk]. }
  exists fuel, bm, byBlock, first, tl'. split; [exact Ptl|].
  split; [rewrite Eby, map_rev; apply (Permutation_NoDup (Permutation_rev _)); exact Nk|]. split; [exact Eit|].
  unfold readVolume. rewrite Unm_vk by (try lia; exact D2). cbn [obind]. rewrite Eb. cbn [obind].
  change (vk_Next (mk_vk d 2)) with (next_block d 2).
  rewrite (readVDB_chain d _ l0 fuel 2 B (proj1 (next_u16 d 2 B)) C2) by (unfold fuel; lia). cbn [obind]. cbv zeta.
  unfold vol_subdirDescriptors. rewrite vol_descs, (filter_pfd _ is_subdir) by reflexivity.
  rewrite (readSubdirs_mono _ _ _ _ _ _ Ex fuel) by (unfold fuel; lia). cbn [obind]. fold byBlock first.
  rewrite (nameSubdirs_ok byBlock first fuel (iter byBlock) (map (named_sub d) tl')); [reflexivity|].
  rewrite Eit. clear -Hy B. induction tl' as [|y tl' IH]; cbn [map]; constructor; [|apply IH; intros z Hz; apply Hy; right; exact Hz].
  destruct (Hy y (or_introl eq_refl)) as (pn & Ep & Eq & [Dk _] & Hk). exists pn. cbn [sub_entry snd].
  rewrite parent_of by assumption. split; [exact Ep|]. rewrite header_name_of by assumption. rewrite <- Eq. reflexivity.
Qed.

Lemma readVolume_ok d t iter : well_formed d t -> an_order iter -> exists fuel bm byBlock first tl', Permutation tl' (subpaths d t) /\
  readVolume iter fuel d 2 =
    Some (Ok (mkVol (mk_vk d 2) (map (mk_vb d) (later t)) bm byBlock (mputs beq (map (named_sub d) tl') []) first)).
Proof.
  intros W Ho. destruct (readVolume_order d t iter W Ho) as (fuel & bm & byB & fi & tl' & P & _ & _ & E).
  exists fuel, bm, byB, fi, tl'. split; assumption.
Qed.

Lemma Catalog_root d t iter : well_formed d t -> an_order iter -> exists fuel, Catalog iter fuel d [] = Some (Ok (live_descs (map pfd_of (dir_entries d 2 (later t))))).
Proof.
  intros W Ho. destruct (readVolume_ok d t iter W Ho) as (fuel & bm & byB & fi & tl' & _ & E). exists fuel. unfold Catalog. rewrite E. cbn [obind].
  rewrite (@zlen_nil Z). cbn [Z.eqb]. rewrite vol_descs. reflexivity.
Qed.
(** Of several entries put under one key the last is found. *)
Lemma mputs_last {K V} (eqk : K -> K -> bool) (ok : forall a b, eqk a b = true <-> a = b) (post : list (K * V)) : forall k v m,
  mget eqk k m = Some v -> ~ In k (map fst post) -> mget eqk k (mputs eqk post m) = Some v.
Proof.
  induction post as [|[k' v'] post IH]; intros k v m G N; [exact G|]. cbn [mputs fold_left fst snd]. cbn [map fst] in N.
  apply (IH k v); [|intros H; apply N; right; exact H]. unfold mget, mput in *. cbn [find fst].
  destruct (eqk k' k) eqn:E; [apply ok in E; exfalso; apply N; left; exact E|].
  clear - G E ok. induction m as [|[a b] m IH]; [exact G|]. cbn [filter find fst] in *.
  destruct (eqk a k') eqn:E1; cbn [negb].
  - apply ok in E1. subst. rewrite E in G. apply IH. exact G.
  - cbn [find fst]. destruct (eqk a k); [exact G | apply IH; exact G].
Qed.
Lemma mputs_at {K V} (eqk : K -> K -> bool) (ok : forall a b, eqk a b = true <-> a = b) (pre post : list (K * V)) k v m :
  ~ In k (map fst post) -> mget eqk k (mputs eqk (pre ++ (k, v) :: post) m) = Some v.
Proof.
  intros N. rewrite mputs_app. apply (mputs_last eqk ok post k v (mput eqk k v (mputs eqk pre m))); [|exact N].
  unfold mget, mput. cbn [find fst]. replace (eqk k k) with true by (symmetry; apply ok; reflexivity). reflexivity.
Qed.
Lemma last_key {K V} (dec : forall a b : K, {a = b} + {a <> b}) (k : K) (xs : list (K * V)) : In k (map fst xs) ->
  exists pre v post, xs = pre ++ (k, v) :: post /\ ~ In k (map fst post).
Proof.
  induction xs as [|[a b] xs IH]; [intros []|]. intros H. destruct (in_dec dec k (map fst xs)) as [I|I].
  - destruct (IH I) as (pre & v & post & -> & N). exists ((a, b) :: pre), v, post. split; [reflexivity | exact N].
  - destruct H as [H|H]; [|contradiction]. cbn [fst] in H. subst. exists [], b, xs. split; [reflexivity | exact I].
Qed.
Lemma mputs_keys {K V} (eqk : K -> K -> bool) (xs : list (K * V)) : forall m k, In k (map fst (mputs eqk xs m)) -> In k (map fst xs) \/ In k (map fst m).
Proof.
  intros m k H. apply in_map_iff in H as (x & <- & Hx). apply mputs_In in Hx as [Hx|Hx]; [left | right]; apply in_map; exact Hx.
Qed.
Lemma Catalog_missing d t iter p : well_formed d t -> an_order iter -> ~ In p (map fst (paths d [] t)) -> exists fuel e, Catalog iter fuel d p = Some (Err e).
Proof.
  intros W Ho Hp. destruct (readVolume_ok d t iter W Ho) as (fuel & bm & byB & fi & tl' & Pt & E). exists fuel. unfold Catalog. rewrite E. cbn [obind].
  destruct p as [|c p]; [exfalso; apply Hp; destruct t; left; reflexivity|]. rewrite zlen_cons. pose proof (zlen_nonneg p). replace (1 + zlen p =? 0) with false by lia.
  cbn [vol_subdirsByName]. destruct (mget beq (c :: p) _) as [sd|] eqn:G; [|eauto]. exfalso. apply Hp.
  apply (mget_In beq beq_eq) in G. apply mputs_In in G as [G|[]]. apply in_map_iff in G as (y & Ey & Hy).
  unfold named_sub in Ey. injection Ey as Ey _. rewrite <- Ey. apply in_map. assert (In y (subpaths d t)) as Hs by (eapply Permutation_in; [exact Pt | exact Hy]).
  unfold subpaths in Hs. destruct (paths d [] t); [destruct Hs | right; exact Hs].
Qed.
Lemma Catalog_path d t iter p k l : well_formed d t -> an_order iter -> NoDup (map fst (paths d [] t)) -> In (p, (k, l)) (paths d [] t) ->
  exists fuel, Catalog iter fuel d p = Some (Ok (live_descs (map pfd_of (dir_entries d k l)))).
Proof.
  intros W Ho N Hin. assert (exists rest, paths d [] t = ([], (2, later t)) :: rest /\ subpaths d t = rest) as (rest & Ep & Es).
  { destruct W as [_ _ _ R _ _]. unfold subpaths. destruct t as [k0 l0 s0]. cbn [root] in R. subst. cbn [paths later tl]. eexists. split; reflexivity. }
  rewrite Ep in Hin, N. destruct Hin as [Hin|Hin].
  - injection Hin as <- <- <-. apply Catalog_root; assumption.
  - destruct (readVolume_ok d t iter W Ho) as (fuel & bm & byB & fi & tl' & Pt & E). exists fuel. unfold Catalog. rewrite E. cbn [obind]. rewrite Es in Pt.
    cbn [map fst] in N. inversion N as [|? ? N1 N2]; subst.
    assert (p <> []) as Hp by (intros ->; apply N1; apply (in_map fst) in Hin; exact Hin).
    destruct p as [|c p]; [congruence|]. rewrite zlen_cons. pose proof (zlen_nonneg p). replace (1 + zlen p =? 0) with false by lia. cbn [vol_subdirsByName].
    assert (NoDup (map fst (map (named_sub d) tl'))) as Nt.
    { rewrite map_map. cbn [named_sub fst]. apply (Permutation_NoDup (l := map fst (subpaths d t))); [apply Permutation_map; symmetry; exact Pt | exact N2]. }
    rewrite (mputs_fresh beq beq_eq) by (cbn [map]; rewrite app_nil_r; exact Nt). rewrite app_nil_r.
    rewrite (mget_NoDup beq beq_eq (c :: p) (mk_sub d k l)); [rewrite sub_descs; reflexivity | |].
    + rewrite map_rev. apply (Permutation_NoDup (Permutation_rev _)). exact Nt.
    + apply -> in_rev. apply in_map_iff. exists (c :: p, (k, l)). split; [reflexivity|]. eapply Permutation_in; [symmetry; exact Pt | exact Hin].
Qed.
Lemma paths_dir d t : bytes_ok d -> tree_ok d t -> 0 <= root t -> forall p q k l, In (q, (k, l)) (paths d p t) -> is_dir d k l /\ 0 <= k.
Proof.
  intros B T. induction T as [k0 l0 subs D E P HS IH]. cbn [root]. intros H0 p q k l Hin. cbn [paths] in Hin. destruct Hin as [Hin|Hin].
  - injection Hin as _ <- <-. split; [exact D | exact H0].
  - apply in_flat_map in Hin as (s & Hs & Hin). eapply IH; [exact Hs | | exact Hin].
    assert (In (root s) (map root subs)) as H by (apply in_map; exact Hs). rewrite <- E in H.
    apply in_map_iff in H as (e & <- & He). apply filter_In in He as [He _]. apply word_u16. eapply slot_entries; eassumption.
Qed.

(** ** Acyclic relations *)
Lemma steps_app R x y z : steps R x y -> steps R y z -> steps R x z.
Proof. induction 1; intros; [eapply steps_S; eassumption | eapply steps_S; [eassumption | auto]]. Qed.
Lemma steps_snoc R x y z : steps R x y -> R y z -> steps R x z.
Proof. intros H1 H2. eapply steps_app; [exact H1 | apply steps_1; exact H2]. Qed.
Lemma acyclic_Acc (R : Z -> Z -> Prop) (lim : list Z) : (forall x y, R x y -> In y lim) -> forall k,
  (forall z, steps R k z -> ~ steps R z z) -> Acc (fun y x => R x y) k.
Proof.
  intros Hl k Hk.
  assert (forall n vs x, (length lim <= n + length vs)%nat -> NoDup vs -> incl vs lim -> In x vs -> (forall v, In v vs -> v = x \/ steps R v x) ->
     steps R k x -> Acc (fun y x => R x y) x) as G.
  { induction n as [|n IH]; intros vs x Hn Nv Iv Hx Hv Kx; constructor; intros y Rxy.
    - exfalso. assert (In y vs \/ ~ In y vs) as [Hy|Hy] by (destruct (in_dec Z.eq_dec y vs); auto).
      + apply (Hk y); [apply (steps_snoc _ _ _ _ Kx Rxy)|]. destruct (Hv y Hy) as [->|Hs]; [apply steps_1; exact Rxy | apply (steps_snoc _ _ _ _ Hs Rxy)].
      + assert (length (y :: vs) <= length lim)%nat as H. { apply NoDup_incl_length; [constructor; assumption|]. intros w [<-|Hw]; [apply (Hl _ _ Rxy) | apply Iv; exact Hw]. }
        cbn [length] in H. lia.
    - assert (In y vs \/ ~ In y vs) as [Hy|Hy] by (destruct (in_dec Z.eq_dec y vs); auto).
      + exfalso. apply (Hk y); [apply (steps_snoc _ _ _ _ Kx Rxy)|]. destruct (Hv y Hy) as [->|Hs]; [apply steps_1; exact Rxy | apply (steps_snoc _ _ _ _ Hs Rxy)].
      + apply (IH (y :: vs)); [cbn [length]; lia | constructor; assumption | intros w [<-|Hw]; [apply (Hl _ _ Rxy) | apply Iv; exact Hw] | left; reflexivity | |].
        * intros v [->|Hv2]; [left; reflexivity|]. right. destruct (Hv v Hv2) as [->|Hs]; [apply steps_1; exact Rxy | apply (steps_snoc _ _ _ _ Hs Rxy)].
        * apply (steps_snoc _ _ _ _ Kx Rxy). }
  constructor. intros y Rky. apply (G (length lim) [y]); [lia | repeat constructor; intros [] | intros w [<-|[]]; apply (Hl _ _ Rky) | left; reflexivity | intros v [->|[]]; left; reflexivity | apply steps_1; exact Rky].
Qed.
Definition u16s : list Z := zrange 65536.
Lemma In_u16s x : is_u16 x -> In x u16s.
Proof. intros H. apply In_zrange. exact H. Qed.
Global Opaque u16s.

(** ** Chains: finite, off the device, or cyclic *)
Definition chain_off (d : bytes) (n : Z) : Prop := exists l q, walk d n l q /\ q <> 0 /\ ~ in_dev d q.
Definition next_step (d : bytes) (n m : Z) : Prop := n <> 0 /\ in_dev d n /\ m = next_block d n.
Lemma steps_walk d x y : steps (next_step d) x y -> exists l, l <> [] /\ walk d x l y.
Proof.
  induction 1 as [x y (N & D & ->)|x y z (N & D & ->) H (l & Hl & W)].
  - exists [x]. split; [discriminate | constructor; [exact N | exact D | constructor]].
  - exists (x :: l). split; [discriminate | constructor; assumption].
Qed.
Lemma walk_head d x l y : walk d x l y -> l <> [] -> In x l.
Proof. intros W H. inversion W; subst; [congruence | left; reflexivity]. Qed.
Lemma chain_classes d n : bytes_ok d -> ~ chain_cyclic d n -> chain_off d n \/ exists l, bchain d n l.
Proof.
  intros B Hc. assert (Acc (fun y x => next_step d x y) n) as A.
  { apply (acyclic_Acc _ u16s); [intros x y (_ & _ & ->); apply In_u16s, next_u16; exact B|]. intros z H1 H2.
    apply steps_walk in H1 as (l1 & N1 & W1), H2 as (l2 & N2 & W2). apply Hc. exists (l1 ++ l2), z. split; [eapply walk_app; eassumption|].
    apply in_or_app. right. eapply walk_head; eassumption. }
  clear Hc. induction A as [n _ IH]. destruct (Z.eq_dec n 0) as [->|N]; [right; exists []; constructor|].
  destruct (in_dev_dec d n) as [D|D]; [|left; exists [], n; split; [constructor | split; assumption]].
  destruct (IH (next_block d n)) as [(l & q & W & Hq)|(l & W)]; [split; [exact N | split; [exact D | reflexivity]] | |].
  - left. exists (n :: l), q. split; [constructor; assumption | exact Hq].
  - right. exists (n :: l). constructor; assumption.
Qed.

(** ** Reading a finite tree of directories, possibly with unreadable ones *)
Definition unreadable (d : bytes) (k : Z) : Prop := ~ in_dev d k \/ chain_off d (next_block d k).
Inductive shape (d : bytes) : tree -> Prop :=
| shape_bad k : unreadable d k -> shape d (Node k [] [])
| shape_node k l subs : is_dir d k l -> map key_pointer (filter is_subdir (dir_entries d k l)) = map root subs ->
    (forall s, In s subs -> shape d s) -> shape d (Node k l subs).
Lemma shapes_list d (ks : list Z) : (forall k, In k ks -> exists t, root t = k /\ shape d t) -> exists ts, map root ts = ks /\ forall t, In t ts -> shape d t.
Proof.
  induction ks as [|k ks IH]; intros H; [exists []; split; [reflexivity | intros t []]|].
  destruct (H k (or_introl eq_refl)) as (t & Et & St). destruct IH as (ts & Ets & Sts); [intros k' Hk; apply H; right; exact Hk|].
  exists (t :: ts). split; [cbn [map]; congruence|]. intros t' [<-|Ht]; auto.
Qed.
Lemma shape_exists d k : bytes_ok d -> (forall z, z = k \/ steps (child d) k z -> ~ chain_cyclic d (next_block d z)) -> Acc (fun y x => child d x y) k -> exists t, root t = k /\ shape d t.
Proof.
  intros B Hc A. induction A as [k _ IH]. destruct (in_dev_dec d k) as [D|D]; [|exists (Node k [] []); split; [reflexivity | constructor; left; exact D]].
  destruct (chain_classes d (next_block d k) B) as [Off|(l & C)]; [apply Hc; left; reflexivity | exists (Node k [] []); split; [reflexivity | constructor; right; exact Off]|].
  destruct (shapes_list d (map key_pointer (filter is_subdir (dir_entries d k l)))) as (ts & Ets & Sts).
  - intros k' Hk. apply in_map_iff in Hk as (e & <- & He). apply filter_In in He as [He Hs].
    assert (child d k (key_pointer e)) as Ch by (exists l, e; repeat split; assumption). apply IH; [exact Ch|].
    intros z [->|Hz]; apply Hc; right; [apply steps_1; exact Ch | eapply steps_S; eassumption].
  - exists (Node k l ts). split; [reflexivity|]. constructor; [split; assumption | symmetry; exact Ets | exact Sts].
Qed.
Lemma readSubdirectory_bad d fd : bytes_ok d -> 0 <= f_KeyPointer fd -> unreadable d (f_KeyPointer fd) -> exists fuel e, readSubdirectory fuel d fd = Some (Err e).
Proof.
  intros B Hk H. destruct (in_dev_dec d (f_KeyPointer fd)) as [D|D].
  - destruct H as [H|(l & q & W & N & O)]; [contradiction|]. exists (S (length l)). unfold readSubdirectory. rewrite Unm_sk by assumption. cbn [obind].
    change (sk_Next (mk_sk d (f_KeyPointer fd))) with (next_block d (f_KeyPointer fd)).
    destruct (readSB_off d _ l q (S (length l)) B (proj1 (next_u16 d _ B)) W N O) as [e ->]; [lia|]. exists e. reflexivity.
  - exists 1%nat. unfold readSubdirectory. destruct (Unm_off (SKB_FromBlock zeroSKB) SKB_SetBlock d (f_KeyPointer fd) D) as [e ->]. exists e. reflexivity.
Qed.
Definition good_maps (d : bytes) (byBlock : list (Z * Subdirectory)) (first : list (Z * Z)) : Prop :=
  (forall x, In x byBlock -> exists l, x = sub_entry d (fst x, l) /\ is_dir d (fst x) l /\ is_u16 (fst x) /\ steps (child d) 2 (fst x)) /\
  (forall b k, In (b, k) first -> k = 2 \/ exists l, is_dir d k l /\ In b l /\ steps (child d) 2 k).
Lemma readSubdirs_total d : bytes_ok d -> forall n ts q byBlock first, length (forest_nodes ts) = n ->
  map f_KeyPointer q = map root ts -> (forall t, In t ts -> shape d t /\ is_u16 (root t) /\ steps (child d) 2 (root t)) -> good_maps d byBlock first ->
  exists fuel r, readSubdirs fuel d q byBlock first = Some r /\ r <> Panic /\ forall by' fi', r = Ok (by', fi') -> good_maps d by' fi'.
Proof.
  intros B. induction n as [|n IH]; intros ts q byBlock first Hn Hq Ht Hg.
  - destruct ts as [|[k l subs] ts]; [|discriminate]. destruct q; [|discriminate]. exists 1%nat. eexists. split; [reflexivity|]. split; [discriminate|].
    intros by' fi' E. injection E as <- <-. exact Hg.
  - destruct ts as [|[k l subs] ts]; [discriminate|]. destruct q as [|sdd q]; [discriminate|]. cbn [map root] in Hq. injection Hq as Hk Hq.
    cbn [forest_nodes flat_map nodes app length] in Hn. rewrite app_length in Hn.
    destruct (Ht _ (or_introl eq_refl)) as (Sh & Uk & Sk). cbn [root] in Uk, Sk. subst k. destruct Uk as [Uk0 Uk1].
    inversion Sh as [? Hb|? ? ? D E HS]; subst.
    + destruct (readSubdirectory_bad d sdd B Uk0 Hb) as (fuel & e & Ee). exists (S fuel), (Err e). cbn [readSubdirs].
      rewrite (readSubdirectory_mono _ _ _ _ Ee (S fuel) ltac:(lia)). split; [reflexivity|]. split; [discriminate | intros ? ? E; discriminate E].
    + destruct (IH (ts ++ subs) (q ++ sd_subdirDescriptors (mk_sub d (f_KeyPointer sdd) l))
               (mput Z.eqb (f_KeyPointer sdd) (mk_sub d (f_KeyPointer sdd) l) byBlock)
               (recordBlocks (f_KeyPointer sdd) (map (mk_sb d) l) first)) as (fuel & r & Er & Nr & Gr).
      * unfold forest_nodes. rewrite flat_map_app, app_length. lia.
      * rewrite !map_app, Hq. f_equal. rewrite sub_subdirs, map_map. exact E.
      * intros t Hin. apply in_app_or in Hin as [Hin|Hin]; [apply Ht; right; exact Hin|]. split; [apply HS; exact Hin|].
        assert (In (root t) (map root subs)) as H by (apply in_map; exact Hin). rewrite <- E in H. apply in_map_iff in H as (e & <- & He). apply filter_In in He as [He Hs].
        split; [apply word_u16; eapply slot_entries; eassumption|]. apply (steps_snoc _ _ _ _ Sk). exists l, e. repeat split; try assumption; apply D.
      * destruct Hg as [G1 G2]. split.
        -- intros x Hx. apply mput_In in Hx as [->|Hx]; [|apply G1; exact Hx]. exists l. cbn [fst]. repeat split; try assumption; apply D.
        -- intros b k Hx. rewrite record_puts, vfirst_puts in Hx. apply mputs_In in Hx as [Hx|Hx]; [|apply G2; exact Hx].
           apply in_map_iff in Hx as (b' & Eb & Hb). injection Eb as -> <-. right. exists l. repeat split; try assumption; apply D.
      * exists (S (fuel + length l)), r. split; [|split; [exact Nr | exact Gr]]. cbn [readSubdirs].
        rewrite (readSubdirectory_ok d sdd l) by (try assumption; lia). cbn [obind sd_blocks mk_sub]. apply (readSubdirs_mono _ _ _ _ _ _ Er). lia.
Qed.
Lemma parentDirName_total d byBlock first k : bytes_ok d -> good_maps d byBlock first -> Acc (fun y x => up d x y) k -> 
  exists fuel r, parentDirName fuel (parent_pointer d k) 2 byBlock first = Some r /\ r <> Panic.
Proof.
  intros B [G1 G2] A. induction A as [k _ IH]. set (b := parent_pointer d k) in *.
  destruct ((b =? 2) || (match mget Z.eqb b first with Some b => b | None => 0 end =? 2)) eqn:E.
  { exists 1%nat. cbn [parentDirName]. rewrite E. eexists. split; [reflexivity | discriminate]. }
  destruct (match mget Z.eqb b byBlock with Some sd => Some sd | None => match mget Z.eqb b first with Some p => mget Z.eqb p byBlock | None => None end end) as [sd|] eqn:F.
  2: { exists 1%nat. cbn [parentDirName]. rewrite E. cbv zeta. rewrite F. eexists. split; [reflexivity | discriminate]. }
  assert (exists k' l', sd = mk_sub d k' l' /\ 0 <= k' /\ in_dev d k' /\ up d k k') as (k' & l' & -> & Hk' & Dk & Up).
  { destruct (mget Z.eqb b byBlock) as [sd'|] eqn:M.
    - injection F as ->. apply (mget_In Z.eqb Zeqb_ok) in M. destruct (G1 _ M) as (l' & Ex & D & U & S'). cbn [fst] in *. unfold sub_entry in Ex. cbn [fst snd] in Ex. injection Ex as Ex.
      exists b, l'. split; [exact Ex|]. split; [apply U|]. split; [apply D|]. exists l'. split; [exact S'|]. split; [exact D | left; reflexivity].
    - destruct (mget Z.eqb b first) as [p|] eqn:M2; [|discriminate]. apply (mget_In Z.eqb Zeqb_ok) in M2, F.
      destruct (G1 _ F) as (l' & Ex & D & U & S'). cbn [fst] in *. unfold sub_entry in Ex. cbn [fst snd] in Ex. injection Ex as Ex.
      destruct (G2 _ _ M2) as [->|(l2 & D2 & Hb & _)]; [rewrite orb_comm in E; discriminate|].
      assert (l2 = l') as -> by (eapply bchain_det; [apply D2 | apply D]).
      exists p, l'. split; [exact Ex|]. split; [apply U|]. split; [apply D|]. exists l'. split; [exact S'|]. split; [exact D | right; exact Hb]. }
  destruct (IH k' Up) as (fuel & r & Er & Nr). exists (S fuel). cbn [parentDirName]. rewrite E. cbv zeta. rewrite F. rewrite parent_of by assumption. rewrite Er.
  destruct r as [pn|e|]; cbn [obind]; [| eexists; split; [reflexivity | discriminate] | congruence].
  destruct (zlen pn =? 0); eexists; (split; [reflexivity | discriminate]).
Qed.
Lemma nameSubdirs_total byBlock first sds : (forall x, In x sds -> exists fuel r, parentDirName fuel (sh_ParentPointer (sk_Header (sd_keyBlock (snd x)))) 2 byBlock first = Some r /\ r <> Panic) ->
  forall byName, exists fuel r, nameSubdirs fuel 2 byBlock first sds byName = Some r /\ r <> Panic.
Proof.
  induction sds as [|x sds IH]; intros H byName; [exists 0%nat; eexists; split; [reflexivity | discriminate]|].
  destruct (H x (or_introl eq_refl)) as (f1 & r1 & E1 & N1). destruct r1 as [pn|e|]; [| |congruence].
  - destruct (IH (fun y Hy => H y (or_intror Hy)) (mput beq (join pn (SH_Name (sk_Header (sd_keyBlock (snd x))))) (snd x) byName)) as (f2 & r2 & E2 & N2).
    exists (f1 + f2)%nat, r2. split; [|exact N2]. rewrite nameSubdirs_spec. rewrite (parentDirName_mono _ _ _ _ _ _ E1) by lia. cbn [obind].
    apply (nameSubdirs_mono _ _ _ _ _ _ _ E2). lia.
  - exists f1, (Err e). split; [|discriminate]. rewrite nameSubdirs_spec, E1. reflexivity.
Qed.
Lemma up_u16 d x y : bytes_ok d -> up d x y -> is_u16 y.
Proof.
  intros B (l' & S' & _ & _). assert (forall a b, steps (child d) a b -> is_u16 a -> is_u16 b) as H.
  { assert (forall a b, child d a b -> 0 <= a -> is_u16 b) as Hc.
    { intros a b (l & e & D & He & _ & ->) Ha. apply word_u16. eapply slot_entries; eassumption. }
    induction 1 as [a b Hab|a b c Hab Hbc IH]; intros Ua; [apply (Hc _ _ Hab); apply Ua|]. apply IH. apply (Hc _ _ Hab). apply Ua. }
  apply (H _ _ S'). unfold is_u16. lia.
Qed.
Lemma child_u16 d a b : bytes_ok d -> 0 <= a -> child d a b -> is_u16 b.
Proof. intros B Ha (l & e & D & He & _ & ->). apply word_u16. eapply slot_entries; eassumption. Qed.
Lemma readVolume_total d iter : bytes_ok d -> zlen d <= 65536 * 512 -> an_order iter -> acyclic d -> exists fuel r, readVolume iter fuel d 2 = Some r /\ r <> Panic.
Proof.
  intros B L Ho [A1 A2 A3]. unfold readVolume. destruct (in_dev_dec d 2) as [D|D].
  2: { exists 0%nat. destruct (Unm_off (VDKB_FromBlock zeroVDKB) VDKB_SetBlock d 2 D) as [e ->]. cbn [obind]. eexists. split; [reflexivity | discriminate]. }
  rewrite Unm_vk by (try lia; exact D). cbn [obind].
  assert (is_u16 (vh_BitMapPointer (vk_Header (mk_vk d 2)))) as Ub.
  { cbn [mk_vk vk_of vk_Header vh_of vh_BitMapPointer]. apply get16_u16, bytes_ok_sub, blk_bytes. exact B. }
  destruct (read_total d _ Ub L) as [[bm ->]|[e ->]]; cbn [obind]; [|exists 0%nat; eexists; split; [reflexivity | discriminate]].
  change (vk_Next (mk_vk d 2)) with (next_block d 2).
  destruct (chain_classes d (next_block d 2) B) as [(l & q & W & N & O)|(l & C)]; [apply A1; left; reflexivity | |].
  { exists (S (length l)). destruct (readVDB_off d _ l q (S (length l)) 2 B (proj1 (next_u16 d 2 B)) W N O) as [e ->]; [lia|]. cbn [obind]. eexists. split; [reflexivity | discriminate]. }
  assert (forall k, In k (map key_pointer (filter is_subdir (dir_entries d 2 l))) -> child d 2 k) as Ch.
  { intros k Hk. apply in_map_iff in Hk as (e & <- & He). apply filter_In in He as [He Hs]. exists l, e. repeat split; assumption. }
  destruct (shapes_list d (map key_pointer (filter is_subdir (dir_entries d 2 l)))) as (ts & Ets & Sts).
  { intros k Hk. apply Ch in Hk. apply shape_exists; [exact B | |].
    - intros z [->|Hz]; apply A1; right; [apply steps_1; exact Hk | eapply steps_S; eassumption].
    - (* the range of [child] below [k] *)
      assert (Acc (fun y x => 0 <= x /\ child d x y) k) as A.
      { apply (acyclic_Acc _ u16s); [intros x y [H0 H1]; apply In_u16s, (child_u16 d x y B H0 H1)|].
        intros z H1 H2. assert (forall a b, steps (fun x y => 0 <= x /\ child d x y) a b -> steps (child d) a b) as Hm.
        { induction 1 as [a b [_ H]|a b c [_ H] _ IH]; [apply steps_1; exact H | eapply steps_S; eassumption]. }
        apply (A2 z); [eapply steps_S; [exact Hk | apply Hm; exact H1] | apply Hm; exact H2]. }
      assert (0 <= k) as H0 by (apply (child_u16 d 2 k B ltac:(lia) Hk)). clear -A H0 B.
      induction A as [k _ IH]. constructor. intros y Hy. apply IH; [split; assumption|]. apply (child_u16 d k y B H0 Hy). }
  destruct (readSubdirs_total d B _ ts (map pfd_of (filter is_subdir (dir_entries d 2 l))) [] (vfirst 2 l []) eq_refl) as (f2 & r2 & E2 & N2 & G2).
  { rewrite map_map. symmetry. exact Ets. }
  { intros t Ht. split; [apply Sts; exact Ht|]. assert (child d 2 (root t)) as Hc by (apply Ch; rewrite <- Ets; apply in_map; exact Ht).
    split; [apply (child_u16 d 2 _ B ltac:(lia) Hc) | apply steps_1; exact Hc]. }
  { split; [intros x []|]. intros b k Hx. rewrite vfirst_puts in Hx. apply mputs_In in Hx as [Hx|[]]. apply in_map_iff in Hx as (b' & Eb & _). injection Eb as _ <-. left. reflexivity. }
  assert (forall fuel, (f2 + S (length l) <= fuel)%nat -> readSubdirs fuel d (vol_subdirDescriptors (mkVol (mk_vk d 2) (map (mk_vb d) l) bm [] [] (vfirst 2 l []))) [] (vfirst 2 l []) = Some r2) as E2'.
  { intros fuel Hf. unfold vol_subdirDescriptors. rewrite vol_descs, (filter_pfd _ is_subdir) by reflexivity. apply (readSubdirs_mono _ _ _ _ _ _ E2). lia. }
  assert (forall fuel, (f2 + S (length l) <= fuel)%nat -> readVDB fuel d 2 (next_block d 2) [] [] = Some (Ok (map (mk_vb d) l, vfirst 2 l []))) as E1'.
  { intros fuel Hf. apply (readVDB_chain d _ l fuel 2 B (proj1 (next_u16 d 2 B)) C). lia. }
  destruct r2 as [[byB fi]|e|]; [| |congruence].
  - specialize (G2 _ _ eq_refl). destruct (nameSubdirs_total byB fi (iter byB)) with (byName := @nil (bytes * Subdirectory)) as (f3 & r3 & E3 & N3).
    { intros x Hx. assert (In x byB) as Hx' by (eapply Permutation_in; [apply Ho | exact Hx]). destruct (proj1 G2 _ Hx') as (lx & Ex & Dx & Ux & Sx).
      rewrite Ex. cbn [sub_entry snd fst]. rewrite parent_of by (try apply Ux; apply Dx). apply (parentDirName_total d _ _ _ B G2).
      apply (acyclic_Acc _ u16s); [intros a b H; apply In_u16s, (up_u16 _ _ _ B H)|]. intros z H1 H2. apply (A3 z); [|exact H2].
      clear -H1. induction H1 as [a b (l' & S' & _)|a b c _ _ IH]; [exact S' | exact IH]. }
    exists (f2 + S (length l) + f3)%nat. rewrite E1' by lia. cbn [obind]. cbv zeta. rewrite E2' by lia. cbn [obind].
    rewrite (nameSubdirs_mono _ _ _ _ _ _ _ E3) by lia. destruct r3; cbn [obind]; [| |congruence]; (eexists; split; [reflexivity | discriminate]).
  - exists (f2 + S (length l))%nat. rewrite E1' by lia. cbn [obind]. cbv zeta. rewrite E2' by lia. cbn [obind]. eexists. split; [reflexivity | discriminate].
Qed.
Lemma Catalog_total d iter p : bytes_ok d -> zlen d <= 65536 * 512 -> an_order iter -> acyclic d -> returns (fun k => Catalog iter k d p) (fun r => r <> Panic).
Proof.
  intros B L Ho A. destruct (readVolume_total d iter B L Ho A) as (fuel & r & E & N).
  assert (exists r', Catalog iter fuel d p = Some r' /\ r' <> Panic) as (r' & E' & N').
  { unfold Catalog. rewrite E. destruct r as [v|e|]; cbn [obind]; [| |congruence]; [|eexists; split; [reflexivity | discriminate]].
    destruct (zlen p =? 0); [eexists; split; [reflexivity | discriminate]|]. destruct (mget beq p _); (eexists; split; [reflexivity | discriminate]). }
  apply (returns_mono _ _ (Catalog_mono iter d p) _ _ E' N').
Qed.
