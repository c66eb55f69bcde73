(** PlaceProofs.v -- proofs for C78. *)
From Coq Require Import ZifyBool ZifyNat.
From Verif Require Import GoBase GoLemmas DiskModel DiskSpec DiskProofs TypesModel Dos3Model Dos3Spec Dos3CodecProofs Dos3Proofs
  Dos3StmtProofs ProdosModel ProdosSpec ProdosCodecProofs PlaceModel PlaceSpec.
Ltac Zify.zify_post_hook ::= Z.div_mod_to_equations.
Local Opaque zrange zeros sub.

Definition pairst (p : Z * Z) : Z := offset (fst p) (snd p).
Definition byte_pair (p : Z * Z) : Prop := is_byte (fst p) /\ is_byte (snd p).

Lemma upd_outside l a d i : 0 <= a -> a + zlen d <= zlen l -> 0 <= i -> ~ (a <= i < a + zlen d) -> znth 0 (upd l a d) i = znth 0 l i.
Proof. intros Ha Hl H0 Hi. rewrite znth_upd by lia. destruct (Z.leb_spec a i); destruct (Z.ltb_spec i (a + zlen d)); cbn [andb]; try reflexivity; lia. Qed.

(** A sector structure with a codec. *)
Lemma sector_kept {T} (From : T -> bytes -> res T) (To : T -> res bytes) (setTS : Z -> Z -> T -> T) (getTS : T -> Z * Z)
    (wf : T -> Prop) (shows : bytes -> T -> Prop) v0 :
  wf v0 ->
  (forall v, wf v -> byte_pair (getTS v)) ->
  (forall v t s, getTS (setTS t s v) = (t, s)) ->
  (forall v, setTS (fst (getTS v)) (snd (getTS v)) v = v) ->
  (forall v t s t' s', setTS t s (setTS t' s' v) = setTS t s v) ->
  (forall v t s, wf v -> is_byte t -> is_byte s -> wf (setTS t s v)) ->
  (forall v t s, To (setTS t s v) = To v) ->
  (forall b v t s, shows b v -> shows b (setTS t s v)) ->
  (forall b, zlen b = 256 -> bytes_ok b -> exists v, From v0 b = Ok v /\ wf v /\ shows b v /\ To v = Ok b) ->
  (forall v, wf v -> exists b, To v = Ok b /\ zlen b = 256 /\ bytes_ok b /\ From v0 b = Ok (setTS (fst (getTS v0)) (snd (getTS v0)) v)) ->
  kept_in_place (fun d p => UnmarshalLogicalSector (From v0) setTS d (fst p) (snd p)) (MarshalLogicalSector To getTS)
    getTS pairst 256 byte_pair wf shows.
Proof.
  intros W0 Hb Hg Hs Hss Hw Ht Hsh HF HT. split.
  - intros d [t s] Hd [B1 B2] L. cbn [fst snd] in *. unfold pairst in *. cbn [fst snd] in *. rewrite Unmarshal_spec.
    assert (0 <= offset t s) by (unfold offset, is_byte in *; lia).
    replace (zlen d <? offset t s + 256) with false by lia.
    destruct (HF (sector d t s)) as (v & E & W & S & TT).
    { unfold sector. rewrite zlen_sub by lia. lia. } { unfold sector. apply bytes_ok_sub. exact Hd. }
    rewrite E. cbn [rbind]. exists (setTS t s v). split; [reflexivity|]. split; [apply Hw; assumption|].
    split; [apply Hg|]. split; [apply Hsh; exact S|].
    unfold MarshalLogicalSector. rewrite Hg, Ht, TT. unfold sbind, lift.
    rewrite WriteSector_ok; [|unfold sector; rewrite zlen_sub by lia; lia|lia].
    f_equal. unfold sector. apply upd_sub_id; lia.
  - intros d v Hd W L. destruct (HT v W) as (b & E & Lb & Bb & FF).
    pose proof (Hb v W) as B. destruct (getTS v) as [t s] eqn:G. destruct B as [B1 B2]. cbn [fst snd] in *.
    unfold pairst in *. cbn [fst snd] in *. assert (0 <= offset t s) by (unfold offset, is_byte in *; lia).
    exists (upd d (offset t s) b). split.
    { unfold MarshalLogicalSector. rewrite G, E. unfold sbind, lift. apply WriteSector_ok; lia. }
    split; [apply zlen_upd; lia|]. split; [apply bytes_ok_upd; assumption|]. split.
    { rewrite Unmarshal_spec. rewrite zlen_upd by lia. replace (zlen d <? offset t s + 256) with false by lia.
      unfold sector. rewrite <- Lb. rewrite sub_upd_same by lia. rewrite FF. cbn [rbind]. rewrite Hss. f_equal.
      rewrite <- (Hs v) at 2. rewrite G. reflexivity. }
    intros i H0 Hi. apply upd_outside; lia.
  - intros d [t s] _ L. unfold pairst in *. cbn [fst snd] in *. rewrite Unmarshal_spec. replace (zlen d <? offset t s + 256) with true by lia. eauto.
  - intros d v W L. destruct (HT v W) as (b & E & _). unfold MarshalLogicalSector. destruct (getTS v) as [t s]. rewrite E. unfold sbind, lift.
    unfold pairst in L. cbn [fst snd] in L. apply WriteSector_err. right. exact L.
Qed.

Lemma C78_vtoc_lemma v0 : VTOC_wf v0 ->
  kept_in_place (fun d p => UnmarshalLogicalSector (VTOC_FromSector v0) VTOC_setTS d (fst p) (snd p)) (MarshalLogicalSector VTOC_ToSector VTOC_getTS)
    (fun v => (v_Track v, v_Sector v)) (fun p => offset (fst p) (snd p)) 256 (fun p => is_byte (fst p) /\ is_byte (snd p)) VTOC_wf VTOC_layout.
Proof.
  intros W0. apply (sector_kept VTOC_FromSector VTOC_ToSector VTOC_setTS VTOC_getTS VTOC_wf VTOC_layout v0); try reflexivity.
  - exact W0.
  - intros v W. exact (vw_ts v W).
  - intros v. destruct v. reflexivity.
  - intros v t s W Bt Bs. destruct W. constructor; try assumption. split; assumption.
  - intros b v t s S. destruct S; constructor; assumption.
  - intros b L B. destruct (C11_lemma v0 v0 b W0) as (_ & H & _). destruct (H L B) as (v & E & W & S & _ & _ & T). eauto 6.
  - intros v W. destruct (C11_lemma v0 v [] W0) as (_ & _ & H). destruct (H W) as (b & E & L & B & _ & F). eauto 6.
Qed.
Definition CS_shows (b : bytes) (cs : CatalogSector) : Prop :=
  cs_NextTrack cs = znth 0 b 1 /\ cs_NextSector cs = znth 0 b 2 /\ Forall2 FD_layout (slots b) (cs_FileDescs cs).
Lemma C78_cs_lemma v0 : CS_wf v0 ->
  kept_in_place (fun d p => UnmarshalLogicalSector (CatalogSector_FromSector v0) CS_setTS d (fst p) (snd p)) (MarshalLogicalSector CatalogSector_ToSector CS_getTS)
    (fun v => (cs_Track v, cs_Sector v)) (fun p => offset (fst p) (snd p)) 256 (fun p => is_byte (fst p) /\ is_byte (snd p)) CS_wf
    (fun b cs => cs_NextTrack cs = znth 0 b 1 /\ cs_NextSector cs = znth 0 b 2 /\ Forall2 FD_layout (slots b) (cs_FileDescs cs)).
Proof.
  intros W0. apply (sector_kept CatalogSector_FromSector CatalogSector_ToSector CS_setTS CS_getTS CS_wf CS_shows v0); try reflexivity.
  - exact W0.
  - intros v W. exact (cw_ts v W).
  - intros v. destruct v. reflexivity.
  - intros v t s W Bt Bs. destruct W. constructor; try assumption. split; assumption.
  - intros b v t s S. exact S.
  - intros b L B. destruct (C12_cs_lemma v0 v0 b W0) as (_ & H & _). destruct (H L B) as (v & E & W & _ & _ & S1 & S2 & S3 & T).
    exists v. split; [exact E|]. split; [exact W|]. split; [repeat split; assumption|exact T].
  - intros v W. destruct (C12_cs_lemma v0 v [] W0) as (_ & _ & H). destruct (H W) as (b & E & L & B & F). eauto 6.
Qed.
Definition TSL_shows (b : bytes) (l : TrackSectorList) : Prop :=
  tsl_NextTrack l = znth 0 b 1 /\ tsl_NextSector l = znth 0 b 2 /\ tsl_SectorOffset l = Dos3Spec.word b 5 /\ tsl_TrackSectors l = pairs b.
Lemma C78_tsl_lemma v0 : TSL_wf v0 ->
  kept_in_place (fun d p => UnmarshalLogicalSector (TSL_FromSector v0) TSL_setTS d (fst p) (snd p)) (MarshalLogicalSector TSL_ToSector TSL_getTS)
    (fun v => (tsl_Track v, tsl_Sector v)) (fun p => offset (fst p) (snd p)) 256 (fun p => is_byte (fst p) /\ is_byte (snd p)) TSL_wf
    (fun b l => tsl_NextTrack l = znth 0 b 1 /\ tsl_NextSector l = znth 0 b 2 /\ tsl_SectorOffset l = Dos3Spec.word b 5 /\ tsl_TrackSectors l = pairs b).
Proof.
  intros W0. apply (sector_kept TSL_FromSector TSL_ToSector TSL_setTS TSL_getTS TSL_wf TSL_shows v0); try reflexivity.
  - exact W0.
  - intros v W. exact (tw_ts v W).
  - intros v. destruct v. reflexivity.
  - intros v t s W Bt Bs. destruct W. constructor; try assumption. split; assumption.
  - intros b v t s S. exact S.
  - intros b L B. destruct (C13_lemma v0 v0 b W0) as (_ & H & _). destruct (H L B) as (v & E & W & _ & _ & S1 & S2 & S3 & S4 & T).
    exists v. split; [exact E|]. split; [exact W|]. split; [repeat split; assumption|exact T].
  - intros v W. destruct (C13_lemma v0 v [] W0) as (_ & _ & H). destruct (H W) as (b & E & L & B & F). eauto 6.
Qed.

(** A block structure with a codec. *)
Lemma block_kept {T} (From : T -> bytes -> res T) (To : T -> res bytes) (setB : Z -> T -> T) (getB : T -> Z)
    (wf : T -> Prop) (shows : bytes -> T -> Prop) v0 :
  wf v0 ->
  (forall v, wf v -> is_u16 (getB v)) ->
  (forall v n, getB (setB n v) = n) ->
  (forall v, setB (getB v) v = v) ->
  (forall v n m, setB n (setB m v) = setB n v) ->
  (forall v n, wf v -> is_u16 n -> wf (setB n v)) ->
  (forall v n, To (setB n v) = To v) ->
  (forall b v n, shows b v -> shows b (setB n v)) ->
  (forall b, zlen b = 512 -> bytes_ok b -> exists v, From v0 b = Ok v /\ wf v /\ shows b v /\ To v = Ok b) ->
  (forall v, wf v -> exists b, To v = Ok b /\ zlen b = 512 /\ bytes_ok b /\ From v0 b = Ok (setB (getB v0) v)) ->
  kept_in_place (UnmarshalBlock (From v0) setB) (MarshalBlock To getB) getB (fun n => 512 * n) 512 is_u16 wf shows.
Proof.
  intros W0 Hb Hg Hs Hss Hw Ht Hsh HF HT. split.
  - intros d n Hd Hn L. unfold UnmarshalBlock. cbv zeta. replace (n * 512) with (512 * n) by lia. unfold is_u16 in *.
    replace (zlen d <? 512 * n + 512) with false by lia.
    destruct (HF (sub d (512 * n) (512 * n + 512))) as (v & E & W & S & TT). { rewrite zlen_sub by lia. lia. } { apply bytes_ok_sub. exact Hd. }
    rewrite E. cbn [rbind]. exists (setB n v). split; [reflexivity|]. split; [apply Hw; assumption|]. split; [apply Hg|]. split; [apply Hsh; exact S|].
    unfold MarshalBlock. rewrite Hg, Ht, TT. cbv zeta. replace (n * 512) with (512 * n) by lia.
    replace (zlen d <? 512 * n + 512) with false by lia. f_equal. apply upd_sub_id; lia.
  - intros d v Hd W L. destruct (HT v W) as (b & E & Lb & Bb & FF). pose proof (Hb v W) as B. remember (getB v) as n eqn:G. unfold is_u16 in *.
    exists (upd d (512 * n) b). split.
    { unfold MarshalBlock. rewrite E, <- G. cbv zeta. replace (n * 512) with (512 * n) by lia. replace (zlen d <? 512 * n + 512) with false by lia. reflexivity. }
    split; [apply zlen_upd; lia|]. split; [apply bytes_ok_upd; assumption|]. split.
    { unfold UnmarshalBlock. cbv zeta. replace (n * 512) with (512 * n) by lia. rewrite zlen_upd by lia. replace (zlen d <? 512 * n + 512) with false by lia.
      replace (512 * n + 512) with (512 * n + zlen b) by lia. rewrite sub_upd_same by lia. rewrite FF. cbn [rbind]. rewrite Hss, G, Hs. reflexivity. }
    intros i H0 Hi. apply upd_outside; lia.
  - intros d n Hn L. unfold UnmarshalBlock. cbv zeta. replace (n * 512) with (512 * n) by lia. replace (zlen d <? 512 * n + 512) with true by lia. eauto.
  - intros d v W L. destruct (HT v W) as (b & E & _). unfold MarshalBlock. rewrite E. cbv zeta. replace (getB v * 512) with (512 * getB v) by lia.
    replace (zlen d <? 512 * getB v + 512) with true by lia. eauto.
Qed.

Lemma C78_vdkb_lemma v0 : VDKB_wf v0 ->
  kept_in_place (UnmarshalBlock (VDKB_FromBlock v0) VDKB_SetBlock) (MarshalBlock VDKB_ToBlock vk_block) vk_block (fun n => 512 * n) 512 is_u16 VDKB_wf
    (fun b v => VH_layout (header_of b) (vk_Header v) /\ Dir_layout b (key_slots b) (vk_Prev v) (vk_Next v) (vk_Descriptors v) (vk_Extra v)).
Proof.
  intros W0. apply (block_kept VDKB_FromBlock VDKB_ToBlock VDKB_SetBlock vk_block); try reflexivity.
  - exact W0.
  - intros v [_ [H _]]. exact (Forall_inv H).
  - intros v. destruct v. reflexivity.
  - intros v n [H1 (H2 & H3)] Hn. split; [exact H1|]. split; [|exact H3]. constructor; [exact Hn|]. exact (Forall_inv_tail H2).
  - intros b v n S. exact S.
  - intros b L B. destruct (VDKB_codec v0 v0 b W0) as (H & _). destruct (H L B) as (v & E & W & _ & S1 & S2 & T). eauto 8.
  - intros v W. destruct (VDKB_codec v0 v [] W0) as (_ & H). exact (H W).
Qed.
Lemma C78_vdb_lemma v0 : VDB_wf v0 ->
  kept_in_place (UnmarshalBlock (VDB_FromBlock v0) VDB_SetBlock) (MarshalBlock VDB_ToBlock vb_block) vb_block (fun n => 512 * n) 512 is_u16 VDB_wf
    (fun b v => Dir_layout b (later_slots b) (vb_Prev v) (vb_Next v) (vb_Descriptors v) (vb_Extra v)).
Proof.
  intros W0. apply (block_kept VDB_FromBlock VDB_ToBlock VDB_SetBlock vb_block); try reflexivity.
  - exact W0.
  - intros v [H _]. exact (Forall_inv H).
  - intros v. destruct v. reflexivity.
  - intros v n (H2 & H3) Hn. split; [|exact H3]. constructor; [exact Hn|]. exact (Forall_inv_tail H2).
  - intros b v n S. exact S.
  - intros b L B. destruct (VDB_codec v0 v0 b W0) as (H & _). destruct (H L B) as (v & E & W & _ & S1 & T). eauto 8.
  - intros v W. destruct (VDB_codec v0 v [] W0) as (_ & H). exact (H W).
Qed.
Lemma C78_skb_lemma v0 : SKB_wf v0 ->
  kept_in_place (UnmarshalBlock (SKB_FromBlock v0) SKB_SetBlock) (MarshalBlock SKB_ToBlock sk_block) sk_block (fun n => 512 * n) 512 is_u16 SKB_wf
    (fun b v => SH_layout (header_of b) (sk_Header v) /\ Dir_layout b (key_slots b) (sk_Prev v) (sk_Next v) (sk_Descriptors v) (sk_Extra v)).
Proof.
  intros W0. apply (block_kept SKB_FromBlock SKB_ToBlock SKB_SetBlock sk_block); try reflexivity.
  - exact W0.
  - intros v [_ [H _]]. exact (Forall_inv H).
  - intros v. destruct v. reflexivity.
  - intros v n [H1 (H2 & H3)] Hn. split; [exact H1|]. split; [|exact H3]. constructor; [exact Hn|]. exact (Forall_inv_tail H2).
  - intros b v n S. exact S.
  - intros b L B. destruct (SKB_codec v0 v0 b W0) as (H & _). destruct (H L B) as (v & E & W & _ & S1 & S2 & T). eauto 8.
  - intros v W. destruct (SKB_codec v0 v [] W0) as (_ & H). exact (H W).
Qed.
Lemma C78_sb_lemma v0 : SB_wf v0 ->
  kept_in_place (UnmarshalBlock (SB_FromBlock v0) SB_SetBlock) (MarshalBlock SB_ToBlock sb_block) sb_block (fun n => 512 * n) 512 is_u16 SB_wf
    (fun b v => Dir_layout b (later_slots b) (sb_Prev v) (sb_Next v) (sb_Descriptors v) (sb_Extra v)).
Proof.
  intros W0. apply (block_kept SB_FromBlock SB_ToBlock SB_SetBlock sb_block); try reflexivity.
  - exact W0.
  - intros v [H _]. exact (Forall_inv H).
  - intros v. destruct v. reflexivity.
  - intros v n (H2 & H3) Hn. split; [|exact H3]. constructor; [exact Hn|]. exact (Forall_inv_tail H2).
  - intros b v n S. exact S.
  - intros b L B. destruct (SB_codec v0 v0 b W0) as (H & _). destruct (H L B) as (v & E & W & _ & S1 & T). eauto 8.
  - intros v W. destruct (SB_codec v0 v [] W0) as (_ & H). exact (H W).
Qed.
Lemma C78_bitmap_lemma v0 : is_u16 (bp_block v0) /\ arr 512 (bp_data v0) ->
  kept_in_place (UnmarshalBlock (bp_FromBlock v0) bp_SetBlock) (MarshalBlock bp_ToBlock bp_block) bp_block (fun n => 512 * n) 512 is_u16
    (fun v => is_u16 (bp_block v) /\ arr 512 (bp_data v)) (fun b v => bp_data v = b).
Proof.
  intros W0. apply (block_kept bp_FromBlock bp_ToBlock bp_SetBlock bp_block); try reflexivity.
  - exact W0.
  - intros v [H _]. exact H.
  - intros v. destruct v. reflexivity.
  - intros v n (_ & H) Hn. split; assumption.
  - intros b v n S. exact S.
  - intros b L B. exists (mkBP (bp_block v0) b). repeat split; try assumption; apply W0.
  - intros v [_ [L B]]. exists (bp_data v). repeat split; assumption.
Qed.
