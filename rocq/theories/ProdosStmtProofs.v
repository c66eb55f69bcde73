(** ProdosStmtProofs.v -- the statements of PropertiesProdos, with their proofs. *)
From Verif Require Import GoBase GoLemmas CodecLemmas DiskModel DiskSpec TypesModel ProdosModel ProdosSpec ProdosCodecProofs ProdosBitmapProofs ProdosProofs.
From Verif Require Dos3Model Dos3StmtProofs.
From Coq Require Import ZifyBool ZifyNat Permutation.
Ltac Zify.zify_post_hook ::= Z.div_mod_to_equations.
Local Opaque zrange zeros sub.

(** ** C23 *)
Lemma C23_lemma d fi ow n :
  (exists e, Dos3Model.dos3_PutFile fi ow d = (d, Err e)) /\ (exists e, Dos3Model.dos3_Delete n d = (d, Err e)) /\
  (exists e, prodos_PutFile fi ow d = (d, Err e)) /\ (exists e, prodos_Delete n d = (d, Err e)) /\ (exists e, prodos_GetFile d n = Err e).
Proof. repeat split; eexists; reflexivity. Qed.

(** ** C47 *)
Lemma C47_lemma vbm b : vbm_wf vbm -> 0 <= b -> (b / 4096 < zlen vbm ->
    (exists u, MarkUsed vbm b = Ok u /\ vbm_wf u /\ map bp_block u = map bp_block vbm /\
       IsFree u b = Ok false /\ forall c, 0 <= c -> c <> b -> IsFree u c = IsFree vbm c) /\
    (exists u, MarkUnused vbm b = Ok u /\ vbm_wf u /\ map bp_block u = map bp_block vbm /\
       IsFree u b = Ok true /\ forall c, 0 <= c -> c <> b -> IsFree u c = IsFree vbm c) /\
    IsFree vbm b = Ok (free_bit (bp_data (znth (mkBP 0 (zeros 512)) vbm (b / 4096))) (b mod 4096))) /\
  (zlen vbm <= b / 4096 -> MarkUsed vbm b = Panic /\ MarkUnused vbm b = Panic /\ IsFree vbm b = Panic).
Proof.
  intros W Hb. split.
  - intros Hz. assert (forall set, exists u, mark vbm b set = Ok u /\ vbm_wf u /\ map bp_block u = map bp_block vbm /\
       IsFree u b = Ok set /\ forall c, 0 <= c -> c <> b -> IsFree u c = IsFree vbm c) as H.
    { intros set. destruct (mark_ok vbm b set W Hb Hz) as (u & E & Wu & Mu & Iu). exists u. split; [exact E|]. split; [exact Wu|]. split; [exact Mu|]. split.
      - rewrite Iu by exact Hb. rewrite Z.eqb_refl. reflexivity.
      - intros c Hc N. rewrite Iu by exact Hc. replace (c =? b) with false by lia. reflexivity. }
    split; [exact (H false)|]. split; [exact (H true)|]. rewrite IsFree_spec by assumption. replace (b / 4096 <? zlen vbm) with true by lia. reflexivity.
  - intros Hz. split; [apply mark_panic; assumption|]. split; [apply mark_panic; assumption|]. rewrite IsFree_spec by assumption.
    replace (b / 4096 <? zlen vbm) with false by lia. reflexivity.
Qed.

(** ** C48 *)
Lemma C48_partial_lemma start n : is_u16 start -> 0 <= n <= 61440 -> exists vbm, NewVolumeBitMap start n = Ok vbm /\ vbm_wf vbm /\
  zlen vbm = (n + 4095) / 4096 /\
  (forall i, 0 <= i < zlen vbm -> bp_block (znth (mkBP 0 (zeros 512)) vbm i) = (start + i) mod 65536) /\
  (forall c, 0 <= c < n -> IsFree vbm c = Ok true) /\ (forall c, n <= c < 4096 * zlen vbm -> IsFree vbm c = Ok false).
Proof.
  intros Hs Hn. destruct (New_ok start n Hs Hn) as (vbm & E & W & L & M & F). exists vbm. split; [exact E|]. split; [exact W|].
  assert (parts_for n = (n + 4095) / 4096) as Ep by reflexivity. rewrite Ep in *. split; [exact L|]. split; [|split].
  - intros i Hi. change (bp_block (znth (mkBP 0 (zeros 512)) vbm i)) with (bp_block (znth zeroBP vbm i)).
    assert (znth 0 (map bp_block vbm) i = bp_block (znth zeroBP vbm i)) as <- by (apply znth_map; exact Hi). rewrite M. rewrite (znth_map _ 0) by (rewrite zlen_zrange; lia).
    rewrite znth_zrange by lia. reflexivity.
  - intros c Hc. rewrite F by lia. replace (c <? n) with true by lia. reflexivity.
  - intros c Hc. rewrite F by lia. replace (c <? n) with false by lia. replace (c <? 4096 * ((n + 4095) / 4096)) with true by lia. reflexivity.
Qed.
Lemma C48_refuted_lemma start n : is_u16 start -> 61440 < n <= 65535 -> NewVolumeBitMap start n = Panic.
Proof. intros _ H. apply New_panic. lia. Qed.

(** ** C49 *)
Lemma C49_refuted_lemma d start : is_u16 start -> zlen d < 4096 * 512 -> exists vbm, readVolumeBitMap d start = Ok vbm /\ forall b, 0 <= b -> IsFree vbm b = Panic.
Proof.
  intros Hs Hd. exists []. split; [apply read_small; assumption|]. intros b Hb. rewrite IsFree_spec; [|constructor | exact Hb]. rewrite (@zlen_nil bitmapPart).
  replace (b / 4096 <? 0) with false by lia. reflexivity.
Qed.
Lemma C49_partial_lemma d start : bytes_ok d -> is_u16 start -> 4096 * 512 <= zlen d <= 65536 * 512 -> 
  (in_dev d start -> exists vbm, readVolumeBitMap d start = Ok vbm /\ (forall b, 0 <= b < 4096 -> IsFree vbm b = Ok (free_bit (blk d start) b)) /\
     (forall b, 4096 <= b -> IsFree vbm b = Panic)) /\
  (~ in_dev d start -> exists e, readVolumeBitMap d start = Err e).
Proof.
  intros B Hs Hd. rewrite read_big by assumption. split; intros D.
  - pose proof D as D'. unfold in_dev in D'. replace (zlen d <? 512 * start + 512) with false by lia. eexists. split; [reflexivity|].
    assert (vbm_wf [mkBP start (blk d start)]) as W.
    { constructor; [|constructor]. split; [apply blk_len; [apply Hs | exact D] | apply blk_bytes; exact B]. }
    split; intros b Hb; (rewrite IsFree_spec; [|exact W | lia]); change (zlen [mkBP start (blk d start)]) with 1.
    + replace (b / 4096 <? 1) with true by lia. f_equal. unfold part_of. replace (b / 4096) with 0 by lia. replace (b mod 4096) with b by lia. reflexivity.
    + replace (b / 4096 <? 1) with false by lia. reflexivity.
  - unfold in_dev in D. replace (zlen d <? 512 * start + 512) with true by lia. eauto.
Qed.
(** A device of 4096 blocks whose bitmap, block 6, has the even blocks free. *)
Definition ex_big : bytes := zeros 3072 ++ repeat 0xAA 512 ++ zeros (2097152 - 3584).
Lemma C49_example_lemma : bytes_ok ex_big /\ 4096 * 512 <= zlen ex_big <= 65536 * 512 /\ in_dev ex_big 6 /\
  exists vbm, readVolumeBitMap ex_big 6 = Ok vbm /\ forall b, 0 <= b < 4096 -> IsFree vbm b = Ok (b mod 2 =? 0).
Proof.
  assert (HL : zlen ex_big = 2097152) by (unfold ex_big; rewrite !zlen_app, zlen_repeat, !zlen_zeros by lia; reflexivity).
  assert (HB : bytes_ok ex_big).
  { unfold ex_big. rewrite !bytes_ok_app. split; [apply bytes_ok_zeros|]. split; [|apply bytes_ok_zeros].
    apply Forall_forall. intros x Hx. apply repeat_spec in Hx. subst. unfold is_byte. lia. }
  assert (Hin : in_dev ex_big 6) by (unfold in_dev; rewrite HL; lia).
  split; [exact HB|]. split; [rewrite HL; lia|]. split; [exact Hin|].
  destruct (C49_partial_lemma ex_big 6 HB ltac:(unfold is_u16; lia) ltac:(rewrite HL; lia)) as [H _].
  destruct (H Hin) as (vbm & E & Hb & _). exists vbm. split; [exact E|]. intros b Hr. rewrite (Hb b Hr). f_equal.
  assert (Eb : blk ex_big 6 = repeat 0xAA 512).
  { unfold blk, ex_big. rewrite sub_app_r by (rewrite zlen_zeros; lia).
    rewrite zlen_zeros by lia. change (512 * 6 - 3072) with 0. change (512 * 6 + 512 - 3072) with 512.
    assert (L5 : zlen (repeat 170 512) = 512) by reflexivity. rewrite sub_app_l by lia. transitivity (sub (repeat 170 512) 0 (zlen (repeat 170 512))); [rewrite L5; reflexivity | apply sub_full]. }
  assert (Ez : znth 0 (repeat 170 512) (b / 8) = 170) by (apply znth_repeat; change (Z.of_nat 512) with 512; clear - Hr; lia).
  unfold free_bit. rewrite Eb, Ez. clear - Hr.
  assert (Hm : b mod 8 = 0 \/ b mod 8 = 1 \/ b mod 8 = 2 \/ b mod 8 = 3 \/ b mod 8 = 4 \/ b mod 8 = 5 \/ b mod 8 = 6 \/ b mod 8 = 7) by lia.
  destruct (Z.eqb_spec (b mod 2) 0); destruct Hm as [E|[E|[E|[E|[E|[E|[E|E]]]]]]]; (exfalso; clear - e E; lia) || (rewrite E; reflexivity) || (exfalso; clear - n E; lia).
Qed.

(** ** C50 *)
Lemma C50_partial_lemma i n : arr 512 i -> 0 <= n < 256 -> IndexBlock_Get i n = znth 0 i n + 256 * znth 0 i (256 + n).
Proof.
  intros [L B] Hn. unfold IndexBlock_Get. pose proof (bytes_ok_znth i n B) as H1. pose proof (bytes_ok_znth i (256 + n) B) as H2. unfold is_byte in *. unfold u16. lia.
Qed.
Lemma C50_refuted_lemma i n b : arr 512 i -> 0 <= n < 256 -> is_u16 b -> IndexBlock_Get i n <> b -> IndexBlock_Get (IndexBlock_Set i n b) n <> b.
Proof. intros _ _ _ H. exact H. Qed.

(** ** C51 *)
Lemma C51_root_lemma d l subs iter : well_formed d (Node 2 l subs) -> an_order iter -> returns (fun k => Catalog iter k d []) (lists d 2 l).
Proof.
  intros W Ho. destruct (Catalog_root _ _ iter W Ho) as (fuel & E). apply (returns_mono _ _ (Catalog_mono iter d []) _ _ E). cbn [later].
  apply live_lists; [apply W | lia|]. destruct W as [_ _ _ _ T _]. inversion T; assumption.
Qed.
Lemma C51_path_lemma d t iter p k l : well_formed d t -> an_order iter -> NoDup (map fst (paths d [] t)) -> In (p, (k, l)) (paths d [] t) ->
  returns (fun n => Catalog iter n d p) (lists d k l).
Proof.
  intros W Ho N Hin. destruct (Catalog_path _ _ iter p k l W Ho N Hin) as (fuel & E). apply (returns_mono _ _ (Catalog_mono iter d p) _ _ E).
  destruct W as [B _ _ R T _]. destruct (paths_dir d t B T ltac:(lia) _ _ _ _ Hin) as [D Hk]. apply live_lists; assumption.
Qed.
Lemma C51_missing_lemma d t iter p : well_formed d t -> an_order iter -> ~ In p (map fst (paths d [] t)) ->
  returns (fun n => Catalog iter n d p) (fun r => exists e, r = Err e).
Proof.
  intros W Ho N. destruct (Catalog_missing _ _ iter p W Ho N) as (fuel & e & E). apply (returns_mono _ _ (Catalog_mono iter d p) _ _ E). eauto.
Qed.

(** ** C52 *)
Lemma bitmap_ok' d : bytes_ok d -> zlen d <= 65536 * 512 -> bitmap_on_device d -> exists bm, readVolumeBitMap d (word (blk d 2) 0x27) = Ok bm.
Proof.
  intros B L H. pose proof (word_u16 (blk d 2) 0x27 (blk_bytes d 2 B)) as U. destruct (Z.ltb_spec (zlen d) (4096 * 512)) as [Hs|Hs]; [rewrite read_small by assumption; eauto|].
  rewrite read_big by (try assumption; lia). specialize (H Hs). unfold in_dev in H. replace (zlen d <? _) with false by lia. eauto.
Qed.
Lemma vh_pointer d : bytes_ok d -> in_dev d 2 -> vh_BitMapPointer (vk_Header (mk_vk d 2)) = word (blk d 2) 0x27.
Proof.
  intros B D. pose proof (blk_len d 2 ltac:(lia) D) as L. cbn [mk_vk vk_of vk_Header vh_of vh_BitMapPointer]. unfold word, get16. rewrite !znth_sub by lia. reflexivity.
Qed.
Lemma C52_block_cycle_lemma d iter p : bytes_ok d -> zlen d <= 65536 * 512 -> bitmap_on_device d -> in_dev d 2 -> chain_cyclic d (next_block d 2) ->
  diverges (fun k => Catalog iter k d p).
Proof.
  intros B L Hb D C k. unfold Catalog, readVolume. rewrite Unm_vk by (try lia; exact D). cbn [obind]. rewrite vh_pointer by assumption.
  destruct (bitmap_ok' d B L Hb) as [bm ->]. cbn [obind]. change (vk_Next (mk_vk d 2)) with (next_block d 2).
  rewrite readVDB_cyclic by (try assumption; apply (next_u16 d 2 B)). reflexivity.
Qed.
Lemma readSubdirs_cyclic d : bytes_ok d -> (forall k, steps (child d) 2 k -> exists l, is_dir d k l) -> forall fuel q byB fi,
  Forall (fun fd => 0 <= f_KeyPointer fd /\ steps (child d) 2 (f_KeyPointer fd)) q ->
  (exists fd k, In fd q /\ (f_KeyPointer fd = k \/ steps (child d) (f_KeyPointer fd) k) /\ steps (child d) k k) ->
  readSubdirs fuel d q byB fi = None.
Proof.
  intros B R. induction fuel as [|fuel IH]; intros q byB fi F (fd & k & Hfd & Hk & Hc); [reflexivity|]. cbn [readSubdirs].
  destruct q as [|sdd q]; [destruct Hfd|]. inversion F as [|? ? [F0 F1] F']; subst. destruct (R _ F1) as [l D].
  destruct (readSubdirectory (S fuel) d sdd) as [r|] eqn:E; [|reflexivity].
  assert (r = Ok (mk_sub d (f_KeyPointer sdd) l)) as ->.
  { pose proof (readSubdirectory_ok d sdd l (S fuel + length l) B F0 D ltac:(lia)) as E2.
    rewrite (readSubdirectory_mono _ _ _ _ E (S fuel + length l) ltac:(lia)) in E2. injection E2 as ->. reflexivity. }
  cbn [obind]. apply IH.
  - apply Forall_app. split; [exact F'|]. rewrite sub_subdirs. apply Forall_forall. intros x Hx. apply in_map_iff in Hx as (e & <- & He). apply filter_In in He as [He Hs].
    change (f_KeyPointer (pfd_of e)) with (key_pointer e).
    assert (child d (f_KeyPointer sdd) (key_pointer e)) as Ch by (exists l, e; repeat split; try assumption; apply D).
    split; [apply (child_u16 d _ _ B F0 Ch) | apply (steps_snoc _ _ _ _ F1 Ch)].
  - destruct Hfd as [->|Hfd].
    + assert (exists y, child d (f_KeyPointer fd) y /\ (y = k \/ steps (child d) y k)) as (y & Ch & Hy).
      { assert (steps (child d) (f_KeyPointer fd) k) as Hs by (destruct Hk as [->|Hk]; assumption). inversion Hs; subst; eauto. }
      pose proof Ch as (l2 & e & D2 & He & Hs & ->). assert (l2 = l) as -> by (eapply bchain_det; [apply D2 | apply D]).
      exists (pfd_of e), k. split; [|split; [exact Hy | exact Hc]]. apply in_or_app. right. rewrite sub_subdirs. apply in_map. apply filter_In. split; assumption.
    + exists fd, k. split; [apply in_or_app; left; exact Hfd | split; assumption].
Qed.
Lemma C52_subdir_cycle_lemma d iter p : bytes_ok d -> zlen d <= 65536 * 512 -> bitmap_on_device d -> (exists l, is_dir d 2 l) ->
  (forall k, steps (child d) 2 k -> exists l, is_dir d k l) -> (exists k, steps (child d) 2 k /\ steps (child d) k k) ->
  diverges (fun k => Catalog iter k d p).
Proof.
  intros B L Hb [l D] R (k0 & H1 & H2) k. unfold Catalog, readVolume. rewrite Unm_vk by (try lia; apply D). cbn [obind]. rewrite vh_pointer by (try assumption; apply D).
  destruct (bitmap_ok' d B L Hb) as [bm ->]. cbn [obind]. change (vk_Next (mk_vk d 2)) with (next_block d 2).
  destruct (readVDB k d 2 (next_block d 2) [] []) as [r|] eqn:E; [|reflexivity].
  assert (r = Ok (map (mk_vb d) l, vfirst 2 l [])) as ->.
  { pose proof (readVDB_chain d _ l (k + S (length l)) 2 B (proj1 (next_u16 d 2 B)) (proj2 D) ltac:(lia)) as E2.
    rewrite (readVDB_mono _ _ _ _ _ _ _ E (k + S (length l)) ltac:(lia)) in E2. injection E2 as ->. reflexivity. }
  cbn [obind]. cbv zeta. unfold vol_subdirDescriptors. rewrite vol_descs, (filter_pfd _ is_subdir) by reflexivity.
  rewrite (readSubdirs_cyclic d B R); [reflexivity | |].
  - apply Forall_forall. intros x Hx. apply in_map_iff in Hx as (e & <- & He). apply filter_In in He as [He Hs].
    change (f_KeyPointer (pfd_of e)) with (key_pointer e). assert (child d 2 (key_pointer e)) as Ch by (exists l, e; repeat split; try assumption; apply D).
    split; [apply (child_u16 d 2 _ B ltac:(lia) Ch) | apply steps_1; exact Ch].
  - assert (exists y, child d 2 y /\ (y = k0 \/ steps (child d) y k0)) as (y & Ch & Hy) by (inversion H1; subst; eauto).
    pose proof Ch as (l2 & e & D2 & He & Hs & ->). assert (l2 = l) as -> by (eapply bchain_det; [apply D2 | apply D]).
    exists (pfd_of e), k0. split; [|split; [exact Hy | exact H2]]. apply in_map. apply filter_In. split; assumption.
Qed.
Lemma C52_partial_lemma d iter p : bytes_ok d -> zlen d <= 65536 * 512 -> an_order iter -> acyclic d ->
  returns (fun k => Catalog iter k d p) (fun r => r <> Panic).
Proof. intros B L Ho A. exact (Catalog_total d iter p B L Ho A). Qed.

(** No panic, whatever the image. *)
Lemma readVDB_np d kb fuel : bytes_ok d -> forall n acc first, 0 <= n -> readVDB fuel d kb n acc first <> Some Panic /\
  forall r f, readVDB fuel d kb n acc first = Some (Ok (r, f)) -> exists l, bchain d n l /\ r = acc ++ map (mk_vb d) l.
Proof.
  intros B. induction fuel as [|fuel IH]; intros n acc first Hn; cbn [readVDB]; [split; [discriminate | intros ? ? E; discriminate E]|].
  destruct (Z.eqb_spec n 0) as [->|N]; [split; [discriminate|]; intros r f E; injection E as <- _; exists []; split; [constructor | rewrite app_nil_r; reflexivity]|].
  destruct (in_dev_dec d n) as [D|D].
  - rewrite Unm_vb by assumption. cbn [obind]. change (vb_Next (mk_vb d n)) with (next_block d n).
    destruct (IH (next_block d n) (acc ++ [mk_vb d n]) (mput Z.eqb n kb first) (proj1 (next_u16 d n B))) as [H1 H2]. split; [exact H1|].
    intros r f E. destruct (H2 _ _ E) as (l & C & ->). exists (n :: l). split; [constructor; assumption|]. rewrite <- app_assoc. reflexivity.
  - destruct (Unm_off (VDB_FromBlock zeroVDB) VDB_SetBlock d n D) as [e ->]. split; [discriminate | intros ? ? E; discriminate E].
Qed.
Lemma readSB_np d fuel : bytes_ok d -> forall n acc, 0 <= n -> readSB fuel d n acc <> Some Panic /\
  forall r, readSB fuel d n acc = Some (Ok r) -> exists l, bchain d n l /\ r = acc ++ map (mk_sb d) l.
Proof.
  intros B. induction fuel as [|fuel IH]; intros n acc Hn; cbn [readSB]; [split; [discriminate | intros ? E; discriminate E]|].
  destruct (Z.eqb_spec n 0) as [->|N]; [split; [discriminate|]; intros r E; injection E as <-; exists []; split; [constructor | rewrite app_nil_r; reflexivity]|].
  destruct (in_dev_dec d n) as [D|D].
  - rewrite Unm_sb by assumption. cbn [obind]. change (sb_Next (mk_sb d n)) with (next_block d n).
    destruct (IH (next_block d n) (acc ++ [mk_sb d n]) (proj1 (next_u16 d n B))) as [H1 H2]. split; [exact H1|].
    intros r E. destruct (H2 _ E) as (l & C & ->). exists (n :: l). split; [constructor; assumption|]. rewrite <- app_assoc. reflexivity.
  - destruct (Unm_off (SB_FromBlock zeroSB) SB_SetBlock d n D) as [e ->]. split; [discriminate | intros ? E; discriminate E].
Qed.
Lemma readSubdirectory_np d fuel fd : bytes_ok d -> 0 <= f_KeyPointer fd -> readSubdirectory fuel d fd <> Some Panic /\
  forall s, readSubdirectory fuel d fd = Some (Ok s) -> exists l, is_dir d (f_KeyPointer fd) l /\ s = mk_sub d (f_KeyPointer fd) l.
Proof.
  intros B Hk. unfold readSubdirectory. destruct (in_dev_dec d (f_KeyPointer fd)) as [D|D].
  - rewrite Unm_sk by assumption. cbn [obind]. change (sk_Next (mk_sk d (f_KeyPointer fd))) with (next_block d (f_KeyPointer fd)).
    destruct (readSB_np d fuel B (next_block d (f_KeyPointer fd)) [] (proj1 (next_u16 d _ B))) as [H1 H2].
    destruct (readSB fuel d (next_block d (f_KeyPointer fd)) []) as [[r|e|]|]; cbn [obind]; (split; [try discriminate|]); try (intros ? E; discriminate E); [|congruence].
    intros s E. injection E as <-. destruct (H2 _ eq_refl) as (l & C & ->). exists l. split; [split; assumption | reflexivity].
  - destruct (Unm_off (SKB_FromBlock zeroSKB) SKB_SetBlock d (f_KeyPointer fd) D) as [e ->]. split; [discriminate | intros ? E; discriminate E].
Qed.
Lemma readSubdirs_np d fuel : bytes_ok d -> forall q byB fi, Forall (fun fd => 0 <= f_KeyPointer fd) q -> readSubdirs fuel d q byB fi <> Some Panic.
Proof.
  intros B. induction fuel as [|fuel IH]; intros q byB fi F; [discriminate|]. cbn [readSubdirs]. destruct q as [|sdd q]; [discriminate|].
  inversion F as [|? ? F0 F']; subst. destruct (readSubdirectory_np d (S fuel) sdd B F0) as [H1 H2].
  destruct (readSubdirectory (S fuel) d sdd) as [[s|e|]|]; cbn [obind]; try discriminate; [|congruence].
  destruct (H2 _ eq_refl) as (l & D & ->). apply IH. apply Forall_app. split; [exact F'|]. rewrite sub_subdirs. apply Forall_forall. intros x Hx.
  apply in_map_iff in Hx as (e & <- & He). apply filter_In in He as [He _]. change (f_KeyPointer (pfd_of e)) with (key_pointer e). apply word_u16. eapply slot_entries; eassumption.
Qed.
Lemma parentDirName_np byB fi fuel : forall b, parentDirName fuel b 2 byB fi <> Some Panic.
Proof.
  induction fuel as [|fuel IH]; intros b; [discriminate|]. cbn [parentDirName]. destruct (_ || _); [discriminate|]. cbv zeta.
  destruct (match mget Z.eqb b byB with Some sd => Some sd | None => _ end) as [sd|]; [|discriminate].
  specialize (IH (sh_ParentPointer (sk_Header (sd_keyBlock sd)))). destruct (parentDirName fuel _ 2 byB fi) as [[n|e|]|]; cbn [obind]; try discriminate; [|congruence].
  destruct (zlen n =? 0); discriminate.
Qed.
Lemma nameSubdirs_np byB fi fuel sds : forall byName, nameSubdirs fuel 2 byB fi sds byName <> Some Panic.
Proof.
  induction sds as [|x sds IH]; intros byName; [discriminate|]. rewrite nameSubdirs_spec.
  pose proof (parentDirName_np byB fi fuel (sh_ParentPointer (sk_Header (sd_keyBlock (snd x))))) as H.
  destruct (parentDirName fuel _ 2 byB fi) as [[n|e|]|]; cbn [obind]; try discriminate; [apply IH | congruence].
Qed.
Lemma C52_no_panic_lemma d iter p k : bytes_ok d -> zlen d <= 65536 * 512 -> Catalog iter k d p <> Some Panic.
Proof.
  intros B L. unfold Catalog. assert (readVolume iter k d 2 <> Some Panic) as H.
  { unfold readVolume. destruct (in_dev_dec d 2) as [D|D].
    2: { destruct (Unm_off (VDKB_FromBlock zeroVDKB) VDKB_SetBlock d 2 D) as [e ->]. discriminate. }
    rewrite Unm_vk by (try lia; exact D). cbn [obind]. rewrite vh_pointer by assumption.
    destruct (read_total d _ (word_u16 (blk d 2) 0x27 (blk_bytes d 2 B)) L) as [[bm ->]|[e ->]]; cbn [obind]; [|discriminate].
    change (vk_Next (mk_vk d 2)) with (next_block d 2). destruct (readVDB_np d 2 k B (next_block d 2) [] [] (proj1 (next_u16 d 2 B))) as [H1 H2].
    destruct (readVDB k d 2 (next_block d 2) [] []) as [[[bs fi]|e|]|]; cbn [obind]; try discriminate; [|congruence].
    destruct (H2 _ _ eq_refl) as (l & C & ->). cbn [app]. unfold vol_subdirDescriptors. rewrite vol_descs, (filter_pfd _ is_subdir) by reflexivity.
    pose proof (readSubdirs_np d k B (map pfd_of (filter is_subdir (dir_entries d 2 l))) [] fi) as H3.
    destruct (readSubdirs k d _ [] fi) as [[[byB fi']|e|]|]; cbn [obind]; try discriminate.
    - pose proof (nameSubdirs_np byB fi' k (iter byB) []) as H4. destruct (nameSubdirs k 2 byB fi' (iter byB) []) as [[nm|e|]|]; cbn [obind]; try discriminate. congruence.
    - exfalso. apply H3; [|reflexivity]. apply Forall_forall. intros x Hx. apply in_map_iff in Hx as (e & <- & He). apply filter_In in He as [He _].
      change (f_KeyPointer (pfd_of e)) with (key_pointer e). apply word_u16. eapply slot_entries; try eassumption; [lia | split; assumption]. }
  destruct (readVolume iter k d 2) as [[v|e|]|]; cbn [obind]; try discriminate; [|congruence].
  destruct (zlen p =? 0); [discriminate|]. destruct (mget beq p _); discriminate.
Qed.

(** ** C53 *)
Definition climbs_ok (fuel : nat) byB fi (x : Z * Subdirectory) : Prop :=
  exists n, parentDirName fuel (sh_ParentPointer (sk_Header (sd_keyBlock (snd x)))) 2 byB fi = Some (Ok n).
Lemma nameSubdirs_climbs byB fi fuel sds : forall byName, (exists r, nameSubdirs fuel 2 byB fi sds byName = Some (Ok r)) <-> Forall (climbs_ok fuel byB fi) sds.
Proof.
  induction sds as [|x sds IH]; intros byName; [split; [constructor | intros _; eexists; reflexivity]|]. rewrite nameSubdirs_spec. split.
  - intros [r E]. destruct (parentDirName fuel _ 2 byB fi) as [[n|e|]|] eqn:F; cbn [obind] in E; try discriminate. constructor; [exists n; exact F|].
    apply (IH (mput beq (join n (SH_Name (sk_Header (sd_keyBlock (snd x))))) (snd x) byName)). exists r. exact E.
  - intros F. inversion F as [|? ? [n F0] F']; subst. rewrite F0. cbn [obind]. apply IH. exact F'.
Qed.
Lemma C53_root_lemma d i1 i2 k r : an_order i1 -> an_order i2 -> Catalog i1 k d [] = Some (Ok r) -> Catalog i2 k d [] = Some (Ok r).
Proof.
  intros O1 O2. unfold Catalog, readVolume. destruct (UnmarshalBlock (VDKB_FromBlock zeroVDKB) VDKB_SetBlock d 2) as [key|e|]; cbn [obind]; try discriminate.
  destruct (readVolumeBitMap d _) as [bm|e|]; cbn [obind]; try discriminate. destruct (readVDB k d 2 _ [] []) as [[[bs fi]|e|]|]; cbn [obind]; try discriminate.
  cbv zeta. destruct (readSubdirs k d _ [] fi) as [[[byB fi']|e|]|]; cbn [obind]; try discriminate.
  destruct (nameSubdirs k 2 byB fi' (i1 byB) []) as [[n1|e|]|] eqn:E1; cbn [obind]; try discriminate.
  assert (exists n2, nameSubdirs k 2 byB fi' (i2 byB) [] = Some (Ok n2)) as [n2 ->].
  { apply nameSubdirs_climbs. apply Forall_forall. intros x Hx. assert (Forall (climbs_ok k byB fi') (i1 byB)) as F by (apply (nameSubdirs_climbs byB fi' k (i1 byB) []); eauto).
    rewrite Forall_forall in F. apply F. eapply Permutation_in; [symmetry; apply O1|]. eapply Permutation_in; [apply O2 | exact Hx]. }
  cbn [obind]. intros H. exact H.
Qed.
Lemma C53_path_lemma d t p : well_formed d t -> NoDup (map fst (paths d [] t)) ->
  exists Q : res (list Descriptor) -> Prop, (forall r1 r2, Q r1 -> Q r2 -> r1 = r2 \/ exists e1 e2, r1 = Err e1 /\ r2 = Err e2) /\
  forall iter, an_order iter -> returns (fun k => Catalog iter k d p) Q.
Proof.
  intros W N. destruct (in_dec (list_eq_dec Z.eq_dec) p (map fst (paths d [] t))) as [Hp|Hp].
  - apply in_map_iff in Hp as ([p' [k l]] & E & Hin). cbn [fst] in E. subst p'. exists (fun r => r = Ok (live_descs (map pfd_of (dir_entries d k l)))).
    split; [intros r1 r2 -> ->; left; reflexivity|]. intros iter Ho. destruct (Catalog_path d t iter p k l W Ho N Hin) as (fuel & E).
    apply (returns_mono _ _ (Catalog_mono iter d p) _ _ E). reflexivity.
  - exists (fun r => exists e, r = Err e). split; [intros r1 r2 [e1 ->] [e2 ->]; right; eauto|]. intros iter Ho. apply (C51_missing_lemma d t); assumption.
Qed.

(** ** C54 *)
Lemma dt_validate dt f e : In e (DateTime_Validate dt f) <-> time_problem dt f e.
Proof.
  unfold DateTime_Validate, time_problem. rewrite in_app_iff.
  destruct (Z.leb_spec 24 (znth 0 (dt_HM dt) 0)) as [H1|H1], (Z.leb_spec 60 (znth 0 (dt_HM dt) 1)) as [H2|H2]; cbn [In]; split;
    intros [H|H]; repeat (destruct H as [H|H]); try contradiction; try lia; subst; auto; destruct H; try lia; auto.
Qed.
Lemma land15 x : Z.land x 0xf = x mod 16.
Proof. change 15 with (Z.ones 4). rewrite Z.land_ones by lia. reflexivity. Qed.
Lemma fd_validate fd e : In e (FD_Validate fd) <-> entry_problem fd e.
Proof. unfold FD_Validate, entry_problem, FD_Name, entry_name. rewrite in_app_iff, !dt_validate, land15. reflexivity. Qed.
Lemma entries_validate descs x e : In e (flat_map FD_Validate descs ++ (if negb (x =? 0) then [VEExtra x] else [])) <-> entries_problem descs x e.
Proof.
  unfold entries_problem. rewrite in_app_iff, in_flat_map.
  assert ((exists fd, In fd descs /\ In e (FD_Validate fd)) <-> (exists fd, In fd descs /\ entry_problem fd e)) as -> by (split; intros (fd & H1 & H2); exists fd; (split; [exact H1 | apply fd_validate; exact H2])).
  assert (In e (if negb (x =? 0) then [VEExtra x] else []) <-> x <> 0 /\ e = VEExtra x) as ->; [|reflexivity].
  destruct (Z.eqb_spec x 0) as [->|N]; cbn [negb In]; [split; [intros [] | intros [H _]; congruence]|]. split; [intros [<-|[]]; auto | intros [_ ->]; auto].
Qed.
Lemma prev_validate x e : In e (if negb (x =? 0) then [VEPrev x] else []) <-> prev_problem x e.
Proof.
  unfold prev_problem. destruct (Z.eqb_spec x 0) as [->|N]; cbn [negb In]; [split; [intros [] | intros [H _]; congruence]|]. split; [intros [<-|[]]; auto | intros [_ ->]; auto].
Qed.
Lemma sh_validate h e : In e (SH_Validate h) <->
  (sh_SeventyFive h <> 0x75 /\ e = VESeventyFive (subdir_name h) (sh_SeventyFive h)) \/
  time_problem (sh_Creation h) (s2b "subdirectory " ++ subdir_name h ++ s2b " header creation date/time") e.
Proof.
  unfold SH_Validate, SH_Name, subdir_name. rewrite in_app_iff, dt_validate, land15.
  assert (forall n, In e (if negb (sh_SeventyFive h =? 0x75) then [VESeventyFive n (sh_SeventyFive h)] else []) <-> sh_SeventyFive h <> 0x75 /\ e = VESeventyFive n (sh_SeventyFive h)) as ->; [|reflexivity].
  intros n. destruct (Z.eqb_spec (sh_SeventyFive h) 0x75) as [E|N]; cbn [negb In]; [split; [intros [] | intros [H _]; congruence]|]. split; [intros [<-|[]]; auto | intros [_ ->]; auto].
Qed.
Lemma C54_problems_lemma e :
  (forall v, In e (VDKB_Validate v) <-> prev_problem (vk_Prev v) e \/
     time_problem (vh_Creation (vk_Header v)) (s2b "creation date/time of VolumeDirectoryHeader") e \/ entries_problem (vk_Descriptors v) (vk_Extra v) e) /\
  (forall v, In e (VDB_Validate v) <-> entries_problem (vb_Descriptors v) (vb_Extra v) e) /\
  (forall v, In e (SKB_Validate v) <-> prev_problem (sk_Prev v) e \/
     (sh_SeventyFive (sk_Header v) <> 0x75 /\ e = VESeventyFive (subdir_name (sk_Header v)) (sh_SeventyFive (sk_Header v))) \/
     time_problem (sh_Creation (sk_Header v)) (s2b "subdirectory " ++ subdir_name (sk_Header v) ++ s2b " header creation date/time") e \/
     entries_problem (sk_Descriptors v) (sk_Extra v) e) /\
  (forall v, In e (SB_Validate v) <-> entries_problem (sb_Descriptors v) (sb_Extra v) e).
Proof.
  split; [|split; [|split]]; intros v.
  - unfold VDKB_Validate, VDH_Validate. rewrite in_app_iff, in_app_iff, prev_validate, dt_validate, entries_validate. reflexivity.
  - apply entries_validate.
  - unfold SKB_Validate. rewrite in_app_iff, in_app_iff, prev_validate, sh_validate, entries_validate. tauto.
  - apply entries_validate.
Qed.
Lemma nil_no_In {A} (l : list A) : l = [] <-> forall e, ~ In e l.
Proof. split; [intros -> e []|]. destruct l as [|x l]; [reflexivity|]. intros H. exfalso. apply (H x). left. reflexivity. Qed.
Lemma time_none dt f : (forall e, ~ time_problem dt f e) <-> time_ok dt.
Proof.
  unfold time_problem, time_ok. split.
  - intros H. pose proof (H (VEHour f (znth 0 (dt_HM dt) 0))) as H1. pose proof (H (VEMinute f (znth 0 (dt_HM dt) 1))) as H2. split.
    + destruct (Z.lt_ge_cases (znth 0 (dt_HM dt) 0) 24); [assumption|]. exfalso. apply H1. left. split; [lia | reflexivity].
    + destruct (Z.lt_ge_cases (znth 0 (dt_HM dt) 1) 60); [assumption|]. exfalso. apply H2. right. split; [lia | reflexivity].
  - intros H e [[H1 _]|[H1 _]]; lia.
Qed.
Lemma entries_none descs x : (forall e, ~ entries_problem descs x e) <-> Forall times_ok descs /\ x = 0.
Proof.
  unfold entries_problem. split.
  - intros H. split.
    + apply Forall_forall. intros fd Hfd. split.
      * apply (time_none _ (s2b "creation date/time of FileDescriptor " ++ entry_name fd)). intros e He. apply (H e). left. exists fd. split; [exact Hfd | left; exact He].
      * apply (time_none _ (s2b "last modification date/time of FileDescriptor " ++ entry_name fd)). intros e He. apply (H e). left. exists fd. split; [exact Hfd | right; exact He].
    + destruct (Z.eq_dec x 0); [assumption|]. exfalso. apply (H (VEExtra x)). right. split; [assumption | reflexivity].
  - intros [F ->] e [(fd & Hfd & He)|[N _]]; [|congruence]. rewrite Forall_forall in F. destruct (F fd Hfd) as [T1 T2].
    destruct He as [He|He]; [apply (proj2 (time_none _ _) T1 e He) | apply (proj2 (time_none _ _) T2 e He)].
Qed.
Lemma prev_none x : (forall e, ~ prev_problem x e) <-> x = 0.
Proof.
  unfold prev_problem. split; [|intros -> e [N _]; congruence]. intros H. destruct (Z.eq_dec x 0); [assumption|]. exfalso. apply (H (VEPrev x)). split; [assumption | reflexivity].
Qed.
Lemma C54_lemma :
  (forall v, VDKB_Validate v = [] <-> vk_Prev v = 0 /\ time_ok (vh_Creation (vk_Header v)) /\ Forall times_ok (vk_Descriptors v) /\ vk_Extra v = 0) /\
  (forall v, VDB_Validate v = [] <-> Forall times_ok (vb_Descriptors v) /\ vb_Extra v = 0) /\
  (forall v, SKB_Validate v = [] <-> sk_Prev v = 0 /\ sh_SeventyFive (sk_Header v) = 0x75 /\ time_ok (sh_Creation (sk_Header v)) /\
     Forall times_ok (sk_Descriptors v) /\ sk_Extra v = 0) /\
  (forall v, SB_Validate v = [] <-> Forall times_ok (sb_Descriptors v) /\ sb_Extra v = 0).
Proof.
  assert (forall P Q : verror -> Prop, (forall e, ~ (P e \/ Q e)) <-> (forall e, ~ P e) /\ (forall e, ~ Q e)) as Or.
  { intros P Q. split; [intros H; split; intros e He; apply (H e); auto | intros [H1 H2] e [He|He]; [apply (H1 e He) | apply (H2 e He)]]. }
  assert (forall P Q : verror -> Prop, (forall e, P e <-> Q e) -> ((forall e, ~ P e) <-> (forall e, ~ Q e))) as Eq.
  { intros P Q H. split; intros N e He; apply (N e); apply H; exact He. }
  split; [|split; [|split]]; intros v; rewrite nil_no_In.
  - rewrite (Eq _ _ (fun e => proj1 (C54_problems_lemma e) v)). rewrite !Or, entries_none, prev_none, time_none. tauto.
  - rewrite (Eq _ _ (fun e => proj1 (proj2 (C54_problems_lemma e)) v)). apply entries_none.
  - rewrite (Eq _ _ (fun e => proj1 (proj2 (proj2 (C54_problems_lemma e))) v)). rewrite !Or, entries_none, prev_none, time_none.
    assert ((forall e, ~ (sh_SeventyFive (sk_Header v) <> 0x75 /\ e = VESeventyFive (subdir_name (sk_Header v)) (sh_SeventyFive (sk_Header v)))) <-> sh_SeventyFive (sk_Header v) = 0x75) as ->; [|tauto].
    split; [|intros -> e [N _]; congruence]. intros H. destruct (Z.eq_dec (sh_SeventyFive (sk_Header v)) 0x75); [assumption|]. exfalso. eapply H. split; [assumption | reflexivity].
  - rewrite (Eq _ _ (fun e => proj2 (proj2 (proj2 (C54_problems_lemma e))) v)). apply entries_none.
Qed.

(** ** C71 *)
Lemma C71_lemma vbm d : vbm_wf vbm -> Forall (fun p => is_u16 (bp_block p)) vbm ->
  (Forall (fun p => in_dev d (bp_block p)) vbm -> NoDup (map bp_block vbm) ->
    exists d', Write vbm d = (d', Ok tt) /\ zlen d' = zlen d /\
      (forall p, In p vbm -> blk d' (bp_block p) = bp_data p) /\
      (forall n, 0 <= n -> ~ In n (map bp_block vbm) -> blk d' n = blk d n)) /\
  (Exists (fun p => ~ in_dev d (bp_block p)) vbm -> exists d' e, Write vbm d = (d', Err e) /\ zlen d' = zlen d).
Proof.
  intros W F. split.
  - intros D N. apply Write_ok; [exact W | | exact N]. rewrite Forall_forall in *. intros p Hp. split; [apply F | apply D]; exact Hp.
  - apply Write_err; assumption.
Qed.

(** ** Example volumes *)
Definition ex_pd (t : Z) (name : bytes) (ftype key blocks : Z) (eof : list Z) : bytes :=
  [t] ++ name ++ repeat 0 (15 - length name) ++ [ftype] ++ put16 key ++ put16 blocks ++ eof ++ repeat 0 15.
Definition ex_kb (prev next t : Z) (name : bytes) (seventyfive pointer : Z) (entries : list bytes) : bytes :=
  put16 prev ++ put16 next ++ [t] ++ name ++ repeat 0 (15 - length name) ++ [seventyfive] ++ repeat 0 13 ++ [0xC3; 39; 13; 0; 0] ++ put16 pointer ++ [0; 0] ++ concat entries.
Definition putb (d : bytes) (n : Z) (b : bytes) : bytes := upd d (512 * n) b.
(** The volume DISK: HELLO, a deleted entry and SUB in block 2, DATA in block 3; SUB (blocks 7,
    8): NOTES and, in block 8, INNER (block 9), whose parent pointer is 8. *)
Definition ex_vol : bytes :=
  let d := zeros 143360 in
  let d := putb d 2 (ex_kb 0 3 0xF4 (s2b "DISK") 0 6
    [ex_pd 0x15 (s2b "HELLO") 0xFC 20 1 [0x34; 1; 0]; ex_pd 0 (s2b "GONE") 4 21 1 [5; 0; 0]; ex_pd 0xD3 (s2b "SUB") 0x0F 7 2 [0; 4; 0]]) in
  let d := putb d 3 (put16 2 ++ put16 0 ++ ex_pd 0x24 (s2b "DATA") 6 22 3 [0; 2; 1]) in
  let d := putb d 7 (ex_kb 0 8 0xE3 (s2b "SUB") 0x75 2 [ex_pd 0x15 (s2b "NOTES") 4 25 1 [9; 0; 0]]) in
  let d := putb d 8 (put16 7 ++ put16 0 ++ ex_pd 0xD5 (s2b "INNER") 0x0F 9 1 [0; 2; 0]) in
  putb d 9 (ex_kb 0 0 0xE5 (s2b "INNER") 0x75 8 [ex_pd 0x11 (s2b "X") 4 26 1 [1; 0; 0]]).
Definition ex_tree : tree := Node 2 [3] [Node 7 [8] [Node 9 [] []]].
(** Two subdirectories with the same name. *)
Definition ex_twins : bytes :=
  let d := zeros 143360 in
  let d := putb d 2 (ex_kb 0 0 0xF4 (s2b "DISK") 0 6 [ex_pd 0xD1 (s2b "A") 0x0F 7 1 [0; 2; 0]; ex_pd 0xD1 (s2b "A") 0x0F 8 1 [0; 2; 0]]) in
  let d := putb d 7 (ex_kb 0 0 0xE1 (s2b "A") 0x75 2 [ex_pd 0x13 (s2b "ONE") 4 20 1 [1; 0; 0]]) in
  putb d 8 (ex_kb 0 0 0xE1 (s2b "A") 0x75 2 [ex_pd 0x13 (s2b "TWO") 4 21 1 [2; 0; 0]]).
Definition ex_twins_tree : tree := Node 2 [] [Node 7 [] []; Node 8 [] []].
(** A volume directory whose next link is itself; a subdirectory containing itself; a
    subdirectory whose parent pointer is itself. *)
Definition ex_loop_block : bytes := putb (zeros 143360) 2 (ex_kb 0 2 0xF4 (s2b "DISK") 0 6 []).
Definition ex_loop_sub : bytes :=
  putb (putb (zeros 143360) 2 (ex_kb 0 0 0xF4 (s2b "DISK") 0 6 [ex_pd 0xD1 (s2b "A") 0x0F 7 1 [0; 2; 0]]))
    7 (ex_kb 0 0 0xE1 (s2b "A") 0x75 2 [ex_pd 0xD1 (s2b "A") 0x0F 7 1 [0; 2; 0]]).
Definition ex_loop_parent : bytes :=
  putb (putb (zeros 143360) 2 (ex_kb 0 0 0xF4 (s2b "DISK") 0 6 [ex_pd 0xD1 (s2b "A") 0x0F 7 1 [0; 2; 0]]))
    7 (ex_kb 0 0 0xE1 (s2b "A") 0x75 7 []).
Ltac dev := unfold in_dev; apply Z.leb_le; vm_compute; reflexivity.
Ltac byt := apply Dos3StmtProofs.bytes_ok_forallb; vm_compute; reflexivity.
Lemma ex_vol_ok : well_formed ex_vol ex_tree.
Proof.
  assert (next_block ex_vol 2 = 3) as N2 by (vm_compute; reflexivity). assert (next_block ex_vol 3 = 0) as N3 by (vm_compute; reflexivity).
  assert (next_block ex_vol 7 = 8) as N7 by (vm_compute; reflexivity). assert (next_block ex_vol 8 = 0) as N8 by (vm_compute; reflexivity).
  assert (next_block ex_vol 9 = 0) as N9 by (vm_compute; reflexivity).
  split; [byt | apply Z.leb_le; vm_compute; reflexivity | intros H; exfalso; revert H; apply Z.lt_nge; apply Z.ltb_lt; vm_compute; reflexivity | reflexivity | |].
  - apply tree_node; [split; [dev|]; rewrite N2; apply bchain_next; [lia | dev | rewrite N3; apply bchain_end] | vm_compute; reflexivity | |].
    + intros s [<-|[]]. left. vm_compute. reflexivity.
    + intros s [<-|[]]. apply tree_node; [split; [dev|]; rewrite N7; apply bchain_next; [lia | dev | rewrite N8; apply bchain_end] | vm_compute; reflexivity | |].
      * intros s [<-|[]]. right. left. vm_compute. reflexivity.
      * intros s [<-|[]]. apply tree_node; [split; [dev|]; rewrite N9; apply bchain_end | vm_compute; reflexivity | intros s [] | intros s []].
  - vm_compute. repeat constructor; cbn [In]; lia.
Qed.
Lemma ex_vol_paths : map fst (paths ex_vol [] ex_tree) = [[]; s2b "SUB"; s2b "SUB/INNER"] /\ NoDup (map fst (paths ex_vol [] ex_tree)).
Proof.
  assert (map fst (paths ex_vol [] ex_tree) = [[]; s2b "SUB"; s2b "SUB/INNER"]) as -> by (vm_compute; reflexivity). split; [reflexivity|].
  repeat constructor; cbn [In]; intros H; repeat destruct H as [H|H]; try contradiction; vm_compute in H; discriminate.
Qed.
Lemma ex_twins_ok : well_formed ex_twins ex_twins_tree.
Proof.
  assert (next_block ex_twins 2 = 0) as N2 by (vm_compute; reflexivity). assert (next_block ex_twins 7 = 0) as N7 by (vm_compute; reflexivity).
  assert (next_block ex_twins 8 = 0) as N8 by (vm_compute; reflexivity).
  split; [byt | apply Z.leb_le; vm_compute; reflexivity | intros H; exfalso; revert H; apply Z.lt_nge; apply Z.ltb_lt; vm_compute; reflexivity | reflexivity | |].
  - apply tree_node; [split; [dev|]; rewrite N2; apply bchain_end | vm_compute; reflexivity | |].
    + intros s [<-|[<-|[]]]; left; vm_compute; reflexivity.
    + intros s [<-|[<-|[]]]; (apply tree_node; [split; [dev|]; rewrite ?N7, ?N8; apply bchain_end | vm_compute; reflexivity | intros s [] | intros s []]).
  - vm_compute. repeat constructor; cbn [In]; lia.
Qed.
Lemma C53_refuted_lemma : exists d t p i1 i2 r1 r2, well_formed d t /\ an_order i1 /\ an_order i2 /\ r1 <> r2 /\
  returns (fun k => Catalog i1 k d p) (eq (Ok r1)) /\ returns (fun k => Catalog i2 k d p) (eq (Ok r2)).
Proof.
  assert (match Catalog (fun m => m) 5 ex_twins (s2b "A") with Some (Ok l) => map d_name l | _ => [] end = [s2b "ONE"]) as N1 by (vm_compute; reflexivity).
  assert (match Catalog (@rev _) 5 ex_twins (s2b "A") with Some (Ok l) => map d_name l | _ => [] end = [s2b "TWO"]) as N2 by (vm_compute; reflexivity).
  destruct (Catalog (fun m => m) 5 ex_twins (s2b "A")) as [[r1|e|]|] eqn:E1; [|discriminate N1..].
  destruct (Catalog (@rev _) 5 ex_twins (s2b "A")) as [[r2|e|]|] eqn:E2; [|discriminate N2..].
  exists ex_twins, ex_twins_tree, (s2b "A"), (fun m => m), (@rev _), r1, r2. split; [exact ex_twins_ok|]. split; [intros m; apply Permutation_refl|].
  split; [intros m; symmetry; apply Permutation_rev|]. split; [|split].
  - intros H. rewrite H, N2 in N1. discriminate N1.
  - apply (returns_mono _ _ (Catalog_mono _ _ _) _ _ E1). reflexivity.
  - apply (returns_mono _ _ (Catalog_mono _ _ _) _ _ E2). reflexivity.
Qed.
Lemma C52_parent_cycle_lemma : exists d, bytes_ok d /\ zlen d = 143360 /\ forall iter p, an_order iter -> diverges (fun k => Catalog iter k d p).
Proof.
  exists ex_loop_parent. split; [byt|]. split; [vm_compute; reflexivity|]. intros iter p Ho k. unfold Catalog.
  assert (readVolume iter k ex_loop_parent 2 = None) as ->; [|reflexivity].
  destruct (readVolume iter k ex_loop_parent 2) as [r|] eqn:E; [exfalso | reflexivity].
  apply (readVolume_mono _ _ _ _ _) with (fuel' := (5 + k)%nat) in E; [|lia]. revert E. unfold readVolume.
  assert (readVolumeBitMap ex_loop_parent 6 = Ok []) as Eb by (apply read_small; [unfold is_u16; lia | apply Z.ltb_lt; vm_compute; reflexivity]).
  rewrite Unm_vk by (try lia; dev). cbn [obind]. assert (vh_BitMapPointer (vk_Header (mk_vk ex_loop_parent 2)) = 6) as -> by (vm_compute; reflexivity).
  rewrite Eb. cbn [obind]. rewrite (readVDB_mono _ _ 1%nat _ _ _ (Ok ([], []))); [|vm_compute; reflexivity | lia]. cbn [obind]. cbv zeta.
  rewrite (readSubdirs_mono _ 2%nat _ _ _ (Ok ([(7, mk_sub ex_loop_parent 7 [])], []))); [|vm_compute; reflexivity | lia]. cbn [obind].
  assert (iter [(7, mk_sub ex_loop_parent 7 [])] = [(7, mk_sub ex_loop_parent 7 [])]) as ->.
  { apply Permutation_length_1_inv. symmetry. apply Ho. }
  rewrite nameSubdirs_spec. cbn [snd]. assert (sh_ParentPointer (sk_Header (sd_keyBlock (mk_sub ex_loop_parent 7 []))) = 7) as Ep by (vm_compute; reflexivity). rewrite Ep.
  assert (forall fuel, parentDirName fuel 7 2 [(7, mk_sub ex_loop_parent 7 [])] [] = None) as ->; [|cbn [obind]; discriminate].
  induction fuel as [|fuel IH]; [reflexivity|]. cbn [parentDirName]. change (mget Z.eqb 7 [(7, mk_sub ex_loop_parent 7 [])]) with (Some (mk_sub ex_loop_parent 7 [])).
  change (mget Z.eqb 7 (@nil (Z * Z))) with (@None Z). cbn [orb Z.eqb Pos.eqb]. cbv zeta. rewrite Ep, IH. reflexivity.
Qed.
Lemma ex_loop_block_ok : bytes_ok ex_loop_block /\ zlen ex_loop_block = 143360 /\ bitmap_on_device ex_loop_block /\ in_dev ex_loop_block 2 /\ chain_cyclic ex_loop_block (next_block ex_loop_block 2).
Proof.
  assert (zlen ex_loop_block = 143360) as L by (vm_compute; reflexivity). split; [byt|]. split; [exact L|]. split; [intros H; lia|]. split; [unfold in_dev; lia|].
  assert (next_block ex_loop_block 2 = 2) as E by (vm_compute; reflexivity). rewrite E. exists [2], 2. split; [|left; reflexivity].
  constructor; [lia | unfold in_dev; lia|]. rewrite E. constructor.
Qed.
Lemma ex_loop_sub_ok : bytes_ok ex_loop_sub /\ zlen ex_loop_sub = 143360 /\ bitmap_on_device ex_loop_sub /\ (exists l, is_dir ex_loop_sub 2 l) /\
  (forall k, steps (child ex_loop_sub) 2 k -> exists l, is_dir ex_loop_sub k l) /\ (exists k, steps (child ex_loop_sub) 2 k /\ steps (child ex_loop_sub) k k).
Proof.
  assert (zlen ex_loop_sub = 143360) as L by (vm_compute; reflexivity). split; [byt|]. split; [exact L|]. split; [intros H; lia|].
  assert (is_dir ex_loop_sub 2 []) as D2. { split; [unfold in_dev; lia|]. assert (next_block ex_loop_sub 2 = 0) as -> by (vm_compute; reflexivity). constructor. }
  assert (is_dir ex_loop_sub 7 []) as D7. { split; [unfold in_dev; lia|]. assert (next_block ex_loop_sub 7 = 0) as -> by (vm_compute; reflexivity). constructor. }
  assert (map key_pointer (filter is_subdir (dir_entries ex_loop_sub 2 [])) = [7]) as E2 by (vm_compute; reflexivity).
  assert (map key_pointer (filter is_subdir (dir_entries ex_loop_sub 7 [])) = [7]) as E7 by (vm_compute; reflexivity).
  assert (forall k, is_dir ex_loop_sub k [] -> map key_pointer (filter is_subdir (dir_entries ex_loop_sub k [])) = [7] -> child ex_loop_sub k 7 /\ forall y, child ex_loop_sub k y -> y = 7) as H.
  { intros k D E. split.
    - assert (In 7 (map key_pointer (filter is_subdir (dir_entries ex_loop_sub k [])))) as Hin by (rewrite E; left; reflexivity).
      apply in_map_iff in Hin as (e & Ee & He). apply filter_In in He as [He Hs]. exists [], e. split; [exact D|]. split; [exact He|]. split; [exact Hs | symmetry; exact Ee].
    - intros y (l & e & Dl & He & Hs & ->). assert (l = []) as -> by (eapply bchain_det; [apply Dl | apply D]).
      assert (In (key_pointer e) [7]) as [<-|[]]; [|reflexivity]. rewrite <- E. apply in_map. apply filter_In. split; assumption. }
  destruct (H 2 D2 E2) as [C2 O2]. destruct (H 7 D7 E7) as [C7 O7]. split; [exists []; exact D2|]. split.
  - assert (forall a b, steps (child ex_loop_sub) a b -> a = 2 \/ a = 7 -> b = 7) as G.
    { induction 1 as [a b Hab|a b c Hab _ IH]; intros [-> | ->]; [apply O2; exact Hab | apply O7; exact Hab | apply IH; right; apply O2; exact Hab | apply IH; right; apply O7; exact Hab]. }
    intros k Hk. rewrite (G _ _ Hk (or_introl eq_refl)). exists []. exact D7.
  - exists 7. split; apply steps_1; assumption.
Qed.

(** ** Well-formed volumes are acyclic *)
Inductive subtree : tree -> tree -> Prop :=
| subtree_refl t : subtree t t
| subtree_sub s s' k l subs : In s' subs -> subtree s s' -> subtree s (Node k l subs).
Lemma subtree_nodes s t : subtree s t -> incl (nodes s) (nodes t).
Proof.
  induction 1 as [t|s s' k l subs Hin _ IH]; [intros x Hx; exact Hx|]. intros x Hx. cbn [nodes]. right. apply in_flat_map. exists s'. split; [exact Hin | apply IH; exact Hx].
Qed.
Lemma subtree_ok d s t : subtree s t -> tree_ok d t -> NoDup (blocks t) -> tree_ok d s /\ NoDup (blocks s).
Proof.
  induction 1 as [t|s s' k l subs Hin _ IH]; intros T N; [split; assumption|]. inversion T as [? ? ? _ _ _ HS]; subst. apply IH; [apply HS; exact Hin|].
  cbn [blocks] in N. inversion N as [|? ? _ N2]; subst. apply NoDup_app_r in N2. apply (flat_inner _ _ _ N2 Hin).
Qed.
Lemma subtree_trans a b c : subtree a b -> subtree b c -> subtree a c.
Proof. intros H1 H2. induction H2 as [t|s s' k l subs Hin _ IH]; [exact H1|]. eapply subtree_sub; [exact Hin | apply IH; exact H1]. Qed.
Lemma child_tree d k l subs y : tree_ok d (Node k l subs) -> child d k y -> exists s, In s subs /\ root s = y.
Proof.
  intros T (l2 & e & D2 & He & Hs & ->). inversion T as [? ? ? D E _ _]; subst. assert (l2 = l) as -> by (eapply bchain_det; [apply D2 | apply D]).
  assert (In (key_pointer e) (map root subs)) as H by (rewrite <- E; apply in_map; apply filter_In; split; assumption). apply in_map_iff in H as (s & Es & Hin). eauto.
Qed.
Lemma steps_tree d x z : steps (child d) x z -> forall k l subs, x = k -> tree_ok d (Node k l subs) -> exists s' s, In s' subs /\ subtree s s' /\ root s = z.
Proof.
  induction 1 as [x y H|x y z H _ IH]; intros k l subs -> T; destruct (child_tree _ _ _ _ _ T H) as (s' & Hin & E).
  - exists s', s'. split; [exact Hin|]. split; [constructor | exact E].
  - inversion T as [? ? ? _ _ _ HS]; subst. pose proof (HS _ Hin) as Ts. destruct s' as [k' l' subs']. cbn [root] in IH. destruct (IH k' l' subs' eq_refl Ts) as (s2 & s & H2 & Hs & Es).
    exists (Node k' l' subs'), s. split; [exact Hin|]. split; [eapply subtree_sub; eassumption | exact Es].
Qed.
Lemma root_blocks t : In (root t) (blocks t).
Proof. destruct t. left. reflexivity. Qed.
Lemma subtree_blocks s t : subtree s t -> incl (blocks s) (blocks t).
Proof.
  intros H x Hx. rewrite blocks_nodes in *. apply in_flat_map in Hx as (n & Hn & Hb). apply in_flat_map. exists n. split; [apply (subtree_nodes _ _ H); exact Hn | exact Hb].
Qed.
Lemma no_return d k l subs : tree_ok d (Node k l subs) -> NoDup (blocks (Node k l subs)) -> ~ steps (child d) k k.
Proof.
  intros T N H. destruct (steps_tree d k k H k l subs eq_refl T) as (s' & s & Hin & Hs & E). cbn [blocks] in N. inversion N as [|? ? N1 _]; subst. apply N1.
  apply in_or_app. right. apply in_flat_map. exists s'. split; [exact Hin|]. apply (subtree_blocks _ _ Hs). apply root_blocks.
Qed.
Lemma chain_not_cyclic d n l : bchain d n l -> ~ chain_cyclic d n.
Proof.
  induction 1 as [|n l N D B IH]; intros C; [destruct (cyclic_step d 0 C) as [H _]; congruence|]. apply IH. apply (cyclic_step d n C).
Qed.
Lemma well_formed_acyclic d t : well_formed d t -> acyclic d.
Proof.
  intros [B L Hb R T N]. destruct t as [k0 l0 subs0]. cbn [root] in R. subst k0.
  assert (forall k, k = 2 \/ steps (child d) 2 k -> exists l subs, subtree (Node k l subs) (Node 2 l0 subs0)) as Reach.
  { intros k [->|H]; [exists l0, subs0; constructor|]. destruct (steps_tree d 2 k H 2 l0 subs0 eq_refl T) as (s' & [k1 l1 subs1] & Hin & Hs & E). cbn [root] in E. subst k1.
    exists l1, subs1. eapply subtree_sub; eassumption. }
  assert (forall k, k = 2 \/ steps (child d) 2 k -> ~ steps (child d) k k) as A2.
  { intros k H. destruct (Reach k H) as (l & subs & St). destruct (subtree_ok d _ _ St T N) as [Tk Nk]. eapply no_return; eassumption. }
  split.
  - intros k H. destruct (Reach k H) as (l & subs & St). destruct (subtree_ok d _ _ St T N) as [Tk _]. inversion Tk as [? ? ? D _ _ _]; subst. eapply chain_not_cyclic. apply D.
  - intros k H. apply A2. right. exact H.
  - assert (forall k, steps (child d) 2 k -> exists k0 l subs, subtree (Node k0 l subs) (Node 2 l0 subs0) /\ child d k0 k /\ In (parent_pointer d k) (k0 :: l)) as Par.
    { assert (forall k, steps (child d) 2 k -> exists k0, (k0 = 2 \/ steps (child d) 2 k0) /\ child d k0 k) as Last.
      { assert (forall a b, steps (child d) a b -> exists k0, (k0 = a \/ steps (child d) a k0) /\ child d k0 b) as G.
        { induction 1 as [a b H|a b c H _ (k0 & H0 & Hc)]; [exists a; split; [left; reflexivity | exact H]|]. exists k0. split; [|exact Hc]. right.
          destruct H0 as [->|H0]; [apply steps_1; exact H | eapply steps_S; eassumption]. }
        intros k H. apply G. exact H. }
      intros k H. destruct (Last k H) as (k0 & H0 & Hc). destruct (Reach k0 H0) as (l & subs & St). exists k0, l, subs. split; [exact St|]. split; [exact Hc|].
      destruct (subtree_ok d _ _ St T N) as [Tk _]. destruct (child_tree _ _ _ _ _ Tk Hc) as (s & Hin & <-). inversion Tk as [? ? ? _ _ P _]; subst. apply P. exact Hin. }
    assert (forall k k', steps (child d) 2 k -> up d k k' -> child d k' k) as Up.
    { intros k k' H (l' & H' & D' & Hin). destruct (Par k H) as (k0 & l & subs & St & Hc & Hp).
      destruct (Reach k' (or_intror H')) as (l2 & subs2 & St'). destruct (subtree_ok d _ _ St' T N) as [Tk' _]. inversion Tk' as [? ? ? D2 _ _ _]; subst.
      assert (l2 = l') as -> by (eapply bchain_det; [apply D2 | apply D']).
      assert ((k0, l) = (k', l')) as E; [|injection E as -> _; exact Hc].
      rewrite blocks_nodes in N. apply (flat_unique node_blocks _ _ _ (parent_pointer d k) N); [apply (subtree_nodes _ _ St); left; reflexivity | apply (subtree_nodes _ _ St'); left; reflexivity | exact Hp | exact Hin]. }
    assert (forall a b, steps (up d) a b -> steps (child d) 2 a -> steps (child d) b a) as Rev.
    { induction 1 as [a b H|a b c H _ IH]; intros Ha; [apply steps_1, Up; assumption|]. assert (steps (child d) 2 b) as Hb2 by (destruct H as (l' & H' & _); exact H').
      apply (steps_snoc _ _ _ _ (IH Hb2)). apply Up; assumption. }
    intros k H C. apply (A2 k (or_intror H)). apply Rev; assumption.
Qed.
