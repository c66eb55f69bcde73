(** LocalProdosProofs.v -- reading a ProDOS volume looks only at the blocks of its directories. *)
From Coq Require Import ZifyBool ZifyNat.
From Verif Require Import GoBase GoLemmas TypesModel DiskModel DiskSpec DiskProofs ProdosModel ProdosSpec ProdosCodecProofs ProdosProofs.
From Verif Require Import CmdModel DetectSpec LocalSpec.
Ltac Zify.zify_post_hook ::= Z.div_mod_to_equations.
Local Opaque zrange zeros sub.

Lemma slots_bytes (key : bool) b e : bytes_ok b -> In e (if key then key_slots b else later_slots b) -> bytes_ok e.
Proof. intros B H. destruct key; unfold key_slots, later_slots in H; apply in_map_iff in H as (i & <- & _); unfold entry_at; apply bytes_ok_sub; exact B. Qed.
Lemma part_pos d key b : bytes_ok d -> prodos_part d key b -> 0 <= b.
Proof.
  intros B [|k b' _ _ _|k b' e _ _ He _]; [lia| |].
  - pose proof (next_u16 d b' B) as U. unfold is_u16 in U. lia.
  - pose proof (word_u16 e 0x11 (slots_bytes k _ e (blk_bytes d b' B) He)) as U. unfold is_u16 in U. unfold key_pointer. lia.
Qed.

Section Lockstep.
  Context (d d' : bytes) (B : bytes_ok d) (Z' : zlen d' = zlen d) (S' : same_directories d d').

  Lemma unm_same {T} (From : bytes -> res T) setB key b : prodos_part d key b -> UnmarshalBlock From setB d b = UnmarshalBlock From setB d' b.
  Proof. intros P. rewrite !Unm_spec, Z', (S' key b P). reflexivity. Qed.

  Definition later_part (x : SubdirectoryBlock) : Prop := exists b, prodos_part d false b /\ in_dev d b /\ x = mk_sb d b.
  Lemma next_part key b : prodos_part d key b -> in_dev d b -> next_block d b = 0 \/ prodos_part d false (next_block d b).
  Proof. intros P D. destruct (Z.eq_dec (next_block d b) 0) as [E|E]; [left; exact E|right; exact (pp_next d key b P D E)]. Qed.
  Lemma readSB_same fuel : forall b acc, b = 0 \/ prodos_part d false b -> readSB fuel d b acc = readSB fuel d' b acc.
  Proof.
    induction fuel as [|fuel IH]; intros b acc Hb; [reflexivity|]. cbn [readSB]. destruct (Z.eqb_spec b 0) as [->|Hn]; [reflexivity|].
    destruct Hb as [Hb|P]; [contradiction (Hn Hb)|]. rewrite <- (unm_same _ _ false b P). destruct (in_dev_dec d b) as [D|D].
    - rewrite (Unm_sb d b (part_pos d false b B P) D). cbn [obind]. apply IH. exact (next_part false b P D).
    - destruct (Unm_off (SB_FromBlock zeroSB) SB_SetBlock d b D) as [e ->]. reflexivity.
  Qed.
  Lemma readSB_part fuel : forall b acc r, b = 0 \/ prodos_part d false b -> Forall later_part acc -> readSB fuel d b acc = Some (Ok r) -> Forall later_part r.
  Proof.
    induction fuel as [|fuel IH]; intros b acc r Hb Ha E; [discriminate|]. cbn [readSB] in E. destruct (Z.eqb_spec b 0) as [->|Hn]; [injection E as <-; exact Ha|].
    destruct Hb as [Hb|P]; [contradiction (Hn Hb)|]. destruct (in_dev_dec d b) as [D|D].
    - rewrite (Unm_sb d b (part_pos d false b B P) D) in E. cbn [obind] in E. apply (IH _ _ _ (next_part false b P D)) in E; [exact E|].
      apply Forall_app. split; [exact Ha|]. constructor; [|constructor]. exists b. auto.
    - destruct (Unm_off (SB_FromBlock zeroSB) SB_SetBlock d b D) as [e E']. rewrite E' in E. discriminate.
  Qed.
  Lemma readSubdirectory_same fuel fd : prodos_part d true (f_KeyPointer fd) ->
    readSubdirectory fuel d fd = readSubdirectory fuel d' fd /\
    forall s, readSubdirectory fuel d fd = Some (Ok s) -> forall x, In x (sd_subdirDescriptors s) -> prodos_part d true (f_KeyPointer x).
  Proof.
    intros P. unfold readSubdirectory. rewrite <- (unm_same _ _ true _ P). destruct (in_dev_dec d (f_KeyPointer fd)) as [D|D].
    2: { destruct (Unm_off (SKB_FromBlock zeroSKB) SKB_SetBlock d _ D) as [e ->]. split; [reflexivity|]. discriminate. }
    rewrite (Unm_sk d _ (part_pos d true _ B P) D). cbn [obind]. pose proof (next_part true _ P D) as N.
    change (sk_Next (mk_sk d (f_KeyPointer fd))) with (next_block d (f_KeyPointer fd)).
    rewrite <- (readSB_same fuel _ [] N). split; [reflexivity|]. intros s E.
    destruct (readSB fuel d (next_block d (f_KeyPointer fd)) []) as [[bs|e|]|] eqn:ER; try discriminate E. cbn [obind] in E. injection E as <-.
    pose proof (readSB_part fuel _ [] bs N (Forall_nil _) ER) as FB. intros x Hx. unfold sd_subdirDescriptors in Hx.
    apply filter_In in Hx as [Hx Hsub]. unfold sd_descriptors in Hx. cbn [sd_keyBlock sd_blocks] in Hx.
    apply in_app_or in Hx as [Hx|Hx].
    - change (sk_Descriptors (mk_sk d (f_KeyPointer fd))) with (descs_of (blk d (f_KeyPointer fd)) 43 12) in Hx. rewrite descs_slots in Hx.
      apply in_map_iff in Hx as (e & <- & He). rewrite isSubdir_of in Hsub. exact (pp_sub d true _ e P D He Hsub).
    - apply in_flat_map in Hx as (sb & Hin & Hx). rewrite Forall_forall in FB. destruct (FB sb Hin) as (b & Pb & Db & ->).
      change (sb_Descriptors (mk_sb d b)) with (descs_of (blk d b) 4 13) in Hx. rewrite descs_slots in Hx.
      apply in_map_iff in Hx as (e & <- & He). rewrite isSubdir_of in Hsub. exact (pp_sub d false _ e Pb Db He Hsub).
  Qed.
  Lemma readSubdirs_same fuel : forall q bb first, (forall x, In x q -> prodos_part d true (f_KeyPointer x)) ->
    readSubdirs fuel d q bb first = readSubdirs fuel d' q bb first.
  Proof.
    induction fuel as [|fuel IH]; intros q bb first Hq; [reflexivity|]. cbn [readSubdirs]. destruct q as [|fd q]; [reflexivity|].
    destruct (readSubdirectory_same (S fuel) fd (Hq fd (or_introl eq_refl))) as [E P]. rewrite <- E.
    destruct (readSubdirectory (S fuel) d fd) as [[s|e|]|] eqn:ER; try reflexivity. cbn [obind]. apply IH. intros x Hx.
    apply in_app_or in Hx as [Hx|Hx]; [apply Hq; right; exact Hx | exact (P s eq_refl x Hx)].
  Qed.
  Definition later_vol (x : VolumeDirectoryBlock) : Prop := exists b, prodos_part d false b /\ in_dev d b /\ x = mk_vb d b.
  Lemma readVDB_same fuel k : forall b acc first, b = 0 \/ prodos_part d false b ->
    readVDB fuel d k b acc first = readVDB fuel d' k b acc first.
  Proof.
    induction fuel as [|fuel IH]; intros b acc first Hb; [reflexivity|]. cbn [readVDB]. destruct (Z.eqb_spec b 0) as [->|Hn]; [reflexivity|].
    destruct Hb as [Hb|P]; [contradiction (Hn Hb)|]. rewrite <- (unm_same _ _ false b P). destruct (in_dev_dec d b) as [D|D].
    - rewrite (Unm_vb d b (part_pos d false b B P) D). cbn [obind]. apply IH. exact (next_part false b P D).
    - destruct (Unm_off (VDB_FromBlock zeroVDB) VDB_SetBlock d b D) as [e ->]. reflexivity.
  Qed.
  Lemma readVDB_part fuel k : forall b acc first r f, b = 0 \/ prodos_part d false b -> Forall later_vol acc ->
    readVDB fuel d k b acc first = Some (Ok (r, f)) -> Forall later_vol r.
  Proof.
    induction fuel as [|fuel IH]; intros b acc first r f Hb Ha E; [discriminate|]. cbn [readVDB] in E. destruct (Z.eqb_spec b 0) as [->|Hn]; [injection E as <- _; exact Ha|].
    destruct Hb as [Hb|P]; [contradiction (Hn Hb)|]. destruct (in_dev_dec d b) as [D|D].
    - rewrite (Unm_vb d b (part_pos d false b B P) D) in E. cbn [obind] in E. apply (IH _ _ _ _ _ (next_part false b P D)) in E; [exact E|].
      apply Forall_app. split; [exact Ha|]. constructor; [|constructor]. exists b. auto.
    - destruct (Unm_off (VDB_FromBlock zeroVDB) VDB_SetBlock d b D) as [e E']. rewrite E' in E. discriminate.
  Qed.
  Lemma bitmap_same p : (exists bm bm', readVolumeBitMap d p = Ok bm /\ readVolumeBitMap d' p = Ok bm') \/
    ((forall bm, readVolumeBitMap d p <> Ok bm) /\ readVolumeBitMap d' p = readVolumeBitMap d p).
  Proof.
    unfold readVolumeBitMap. cbv zeta. rewrite Z'. destruct (NewVolumeBitMap _ _) as [vbm|e|]; cbn [rbind]; [|right; split; [discriminate|reflexivity]..].
    induction vbm as [|bp vbm IH]; [left; exists [], []; split; reflexivity|]. cbn [mapres]. rewrite !Unm_spec, Z'.
    destruct (zlen d <? 512 * bp_block bp + 512); [right; split; [discriminate|reflexivity]|]. cbn [rbind bp_FromBlock].
    destruct IH as [(bm & bm' & -> & ->)|[N ->]]; [left; cbn [rbind]; eauto|].
    destruct (mapres _ vbm) as [bm|e|]; [contradiction (N bm eq_refl)|right; split; [discriminate|reflexivity]..].
  Qed.
  Lemma Catalog_same iter fuel dir : Catalog iter fuel d dir = Catalog iter fuel d' dir.
  Proof.
    pose proof (pp_volume d) as P2. unfold Catalog, readVolume. rewrite <- (unm_same _ _ true 2 P2). destruct (in_dev_dec d 2) as [D|D].
    2: { destruct (Unm_off (VDKB_FromBlock zeroVDKB) VDKB_SetBlock d 2 D) as [e ->]. reflexivity. }
    rewrite (Unm_vk d 2 ltac:(lia) D). cbn [obind]. remember (vh_BitMapPointer (vk_Header (mk_vk d 2))) as p eqn:Ep. clear Ep.
    destruct (bitmap_same p) as [(bm & bm' & -> & ->)|[N ->]].
    2: { destruct (readVolumeBitMap d p) as [bm|e|]; [contradiction (N bm eq_refl)|reflexivity..]. }
    cbn [obind]. pose proof (next_part true 2 P2 D) as N. change (vk_Next (mk_vk d 2)) with (next_block d 2).
    rewrite <- (readVDB_same fuel 2 _ [] [] N). destruct (readVDB fuel d 2 (next_block d 2) [] []) as [[[bs first]|e|]|] eqn:ER; try reflexivity.
    cbn [obind]. pose proof (readVDB_part fuel 2 _ [] [] bs first N (Forall_nil _) ER) as FB.
    assert (forall m1 m2 m3 m4, vol_subdirDescriptors (mkVol (mk_vk d 2) bs bm m1 m2 m3) = vol_subdirDescriptors (mkVol (mk_vk d 2) bs m4 m1 m2 m3)) as EV by reflexivity.
    rewrite (EV [] [] first bm').
    assert (forall x, In x (vol_subdirDescriptors (mkVol (mk_vk d 2) bs bm' [] [] first)) -> prodos_part d true (f_KeyPointer x)) as Hq.
    { intros x Hx. unfold vol_subdirDescriptors in Hx. apply filter_In in Hx as [Hx Hsub]. unfold vol_descriptors in Hx. cbn [vol_keyBlock vol_blocks] in Hx.
      apply in_app_or in Hx as [Hx|Hx].
      - change (vk_Descriptors (mk_vk d 2)) with (descs_of (blk d 2) 43 12) in Hx. rewrite descs_slots in Hx.
        apply in_map_iff in Hx as (e & <- & He). rewrite isSubdir_of in Hsub. exact (pp_sub d true _ e P2 D He Hsub).
      - apply in_flat_map in Hx as (vb & Hin & Hx). rewrite Forall_forall in FB. destruct (FB vb Hin) as (b & Pb & Db & ->).
        change (vb_Descriptors (mk_vb d b)) with (descs_of (blk d b) 4 13) in Hx. rewrite descs_slots in Hx.
        apply in_map_iff in Hx as (e & <- & He). rewrite isSubdir_of in Hsub. exact (pp_sub d false _ e Pb Db He Hsub). }
    rewrite <- (readSubdirs_same fuel _ [] first Hq).
    destruct (readSubdirs fuel d _ [] first) as [[[bb first']|e|]|]; try reflexivity. cbn [obind].
    destruct (nameSubdirs fuel 2 bb first' (iter bb) []) as [[bn|e|]|]; try reflexivity.
  Qed.

  (** ** A volume stays one *)
  Lemma bchain_part n l : bchain d n l -> (n = 0 \/ prodos_part d false n) -> Forall (fun b => prodos_part d false b) l /\ bchain d' n l.
  Proof.
    induction 1 as [|n l Hn D _ IH]; intros Hp; [split; constructor|]. destruct Hp as [Hp|P]; [contradiction (Hn Hp)|].
    destruct (IH (next_part false n P D)) as [F C]. split; [constructor; assumption|]. constructor; [exact Hn|unfold in_dev in *; rewrite Z'; exact D|].
    unfold next_block in *. rewrite <- (S' false n P). exact C.
  Qed.
  Lemma tree_part t : tree_ok d t -> prodos_part d true (root t) -> tree_ok d' t.
  Proof.
    intros T. induction T as [k l subs D E Hpar Hsubs IH]; intros P. cbn [root] in P. destruct D as [D C].
    destruct (bchain_part _ _ C (next_part true k P D)) as [F C'].
    assert (blk d k = blk d' k) as Ek by exact (S' true k P).
    assert (forall b, In b l -> in_dev d b) as Dl.
    { clear - C. remember (next_block d k) as n eqn:En. clear En. induction C as [|n l Hn D _ IH]; intros b Hb; [destruct Hb|]. destruct Hb as [<-|Hb]; [exact D|exact (IH b Hb)]. }
    assert (dir_entries d k l = dir_entries d' k l) as Ed.
    { unfold dir_entries. rewrite Ek. f_equal. f_equal. apply map_ext_in. intros b Hb. rewrite Forall_forall in F. rewrite (S' false b (F b Hb)). reflexivity. }
    assert (forall s, In s subs -> prodos_part d true (root s)) as Ps.
    { intros s Hs. assert (In (root s) (map root subs)) as Hr by (apply in_map; exact Hs). rewrite <- E in Hr. apply in_map_iff in Hr as (e & Ee & He).
      apply filter_In in He as [He Hsub]. rewrite <- Ee. unfold dir_entries in He. apply in_app_or in He as [He|He].
      - exact (pp_sub d true k e P D He Hsub).
      - apply in_concat in He as (sl & Hsl & He). apply in_map_iff in Hsl as (b & <- & Hb). rewrite Forall_forall in F. exact (pp_sub d false b e (F b Hb) (Dl b Hb) He Hsub). }
    constructor.
    - split; [unfold in_dev in *; rewrite Z'; exact D|]. unfold next_block in *. rewrite <- Ek. exact C'.
    - rewrite <- Ed. exact E.
    - intros s Hs. unfold parent_pointer. rewrite <- (S' true _ (Ps s Hs)). exact (Hpar s Hs).
    - intros s Hs. exact (IH s Hs (Ps s Hs)).
  Qed.
  Lemma prodos_disk_same : bytes_ok d' -> prodos_disk d -> prodos_disk d'.
  Proof.
    intros B' (t & [_ Hs Hb Hr Ht Hn]). exists t. constructor; try assumption.
    - rewrite Z'. exact Hs.
    - unfold bitmap_on_device, in_dev in *. rewrite Z', <- (S' true 2 (pp_volume d)). exact Hb.
    - apply tree_part; [exact Ht|]. rewrite Hr. constructor.
  Qed.
End Lockstep.
