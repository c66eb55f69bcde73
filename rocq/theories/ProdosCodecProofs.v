(** ProdosCodecProofs.v -- the struct/block codecs of package prodos (C14, C15). *)
From Verif Require Import GoBase GoLemmas DiskModel DiskSpec TypesModel CodecLemmas ProdosModel ProdosSpec.
From Coq Require Import ZifyBool ZifyNat.
Ltac Zify.zify_post_hook ::= Z.div_mod_to_equations.
Local Opaque zrange zeros sub.

Ltac fresh1 := first [rewrite zset_fresh by (autorewrite with zl; lia)
                     |rewrite copyInto_fresh by (autorewrite with zl; lia)
                     |rewrite upd_fresh by (autorewrite with zl; lia)]; cbn [rbind].
Ltac inj1 E := lazymatch type of E with
  | (_ :: nil) ++ _ = _ => apply app_single_inj in E; destruct E as [? E]
  | _ => apply app_inj_len in E; [destruct E as [? E] | autorewrite with zl; lia]
  end.
Ltac znorm := repeat match goal with
  | |- context [Z.mul ?a ?b] => let c := eval compute in (Z.mul a b) in change (Z.mul a b) with c
  | |- context [Z.add ?a ?b] => let c := eval compute in (Z.add a b) in change (Z.add a b) with c
  end.
Ltac merge b := rewrite ?(sub_znth b) by lia; znorm; rewrite <- !(sub_app_split b) by lia.
Lemma bytes1 x : is_byte x -> bytes_ok [x].
Proof. intros; constructor; [assumption | constructor]. Qed.
Ltac bok := repeat (apply bytes_ok_app; split); try (apply bytes1); try assumption.
Lemma mapres_ok {A B} (f : A -> res B) (g : A -> B) l : (forall x, In x l -> f x = Ok (g x)) -> mapres f l = Ok (map g l).
Proof.
  induction l as [|x l IH]; intros H; [reflexivity|]. cbn [mapres map]. rewrite H by (left; reflexivity). cbn [rbind].
  rewrite IH by (intros y Hy; apply H; right; exact Hy). reflexivity.
Qed.

(** ** Dates *)
Definition dt_of (b : bytes) : DateTime := mkDT [znth 0 b 0; znth 0 b 1] [znth 0 b 2; znth 0 b 3].
Lemma list4 (b : bytes) : zlen b = 4 -> b = [znth 0 b 0; znth 0 b 1; znth 0 b 2; znth 0 b 3].
Proof. destruct b as [|x [|y [|z [|w [|]]]]]; unfold zlen; cbn [length]; intros; try lia. reflexivity. Qed.
Lemma list2 (b : bytes) : zlen b = 2 -> b = [znth 0 b 0; znth 0 b 1].
Proof. destruct b as [|x [|y [|]]]; unfold zlen; cbn [length]; intros; try lia. reflexivity. Qed.
Lemma DT_len dt : zlen (DateTime_toBytes dt) = 4.
Proof. reflexivity. Qed.
#[local] Hint Rewrite DT_len : zl.
Lemma DT_from b : zlen b = 4 -> DateTime_fromBytes b = Ok (dt_of b).
Proof. intros H. unfold DateTime_fromBytes. rewrite H. reflexivity. Qed.
Lemma DT_lay_of b : zlen b = 4 -> DateTime_toBytes (dt_of b) = b.
Proof. intros H. symmetry. apply list4. exact H. Qed.
Lemma DT_wf_of b : bytes_ok b -> DT_wf (dt_of b).
Proof. intros H. repeat split; try (repeat constructor; apply bytes_ok_znth; exact H). Qed.
Lemma DT_inj dt dt' : DT_wf dt -> DT_wf dt' -> DateTime_toBytes dt = DateTime_toBytes dt' -> dt = dt'.
Proof.
  intros [[H1 _] [H2 _]] [[K1 _] [K2 _]]. unfold DateTime_toBytes. destruct dt as [y h], dt' as [y' h']. cbn [dt_YMD dt_HM] in *. intros E.
  injection E as E1 E2 E3 E4. rewrite (list2 y H1), (list2 y' K1), (list2 h H2), (list2 h' K2). congruence.
Qed.
Lemma DT_bytes dt : DT_wf dt -> bytes_ok (DateTime_toBytes dt).
Proof. intros [[_ H1] [_ H2]]. repeat constructor; apply bytes_ok_znth; assumption. Qed.
Lemma DT_layout_of b a : 0 <= a -> a + 4 <= zlen b -> DT_layout b a (dt_of (sub b a (a + 4))).
Proof.
  intros. unfold DT_layout, dt_of. cbn [dt_YMD dt_HM]. rewrite !znth_sub by lia.
  rewrite !(znth_cons_0 0), !(znth_cons_S 0 _ _ 1) by lia. change (1 - 1) with 0. rewrite !(znth_cons_0 0). rewrite Z.add_0_r. repeat split.
Qed.
Ltac sdt b := repeat match goal with |- context [DateTime_toBytes (dt_of (sub b ?x ?y))] => rewrite (DT_lay_of (sub b x y)) by (rewrite zlen_sub by lia; lia) end.
Ltac fall H := rewrite Forall_forall in H; cbn [In] in H.

(** ** File descriptors *)
Definition pfd_lay (fd : FileDescriptor) : bytes :=
  [f_TypeAndNameLength fd] ++ f_FileName fd ++ [f_FileType fd] ++ put16 (f_KeyPointer fd) ++ put16 (f_BlocksUsed fd) ++ f_EOF fd ++
  DateTime_toBytes (f_Creation fd) ++ [f_Version fd] ++ [f_MinVersion fd] ++ [f_Access fd] ++ put16 (f_AuxType fd) ++
  DateTime_toBytes (f_LastMod fd) ++ put16 (f_HeaderPointer fd).
Lemma PFD_To fd : zlen (f_FileName fd) = 15 -> zlen (f_EOF fd) = 3 -> FD_toBytes fd = Ok (pfd_lay fd) /\ zlen (pfd_lay fd) = 39.
Proof.
  intros H H1. split.
  - unfold FD_toBytes. cbv zeta. change (zeros 39) with ([] ++ zeros 39). do 13 fresh1. f_equal. unfold pfd_lay.
    autorewrite with zl. rewrite <- !app_assoc. cbn [app].
    change (zeros (39 - 1 - (16 - 1) - 1 - 2 - 2 - (24 - 21) - (28 - 24) - 1 - 1 - 1 - 2 - (37 - 33) - 2)) with (@nil Z). reflexivity.
  - unfold pfd_lay. autorewrite with zl. lia.
Qed.
Definition pfd_of (b : bytes) : FileDescriptor :=
  mkPFD (znth 0 b 0) (sub b 1 0x10) (znth 0 b 0x10) (get16 b 0x11) (get16 b 0x13) (sub b 0x15 0x18)
    (dt_of (sub b 0x18 0x1c)) (znth 0 b 0x1c) (znth 0 b 0x1d) (znth 0 b 0x1e) (get16 b 0x1f) (dt_of (sub b 0x21 0x25)) (get16 b 0x25).
Ltac fproj := cbn [pfd_of f_TypeAndNameLength f_FileName f_FileType f_KeyPointer f_BlocksUsed f_EOF f_Creation f_Version f_MinVersion
  f_Access f_AuxType f_LastMod f_HeaderPointer].
Lemma PFD_From b : zlen b = 39 -> FD_fromBytes b = Ok (pfd_of b).
Proof.
  intros H. unfold FD_fromBytes. rewrite H. cbn [negb Z.eqb Pos.eqb].
  rewrite !DT_from by (rewrite zlen_sub by lia; lia). reflexivity.
Qed.
Lemma PFD_lay_of b : zlen b = 39 -> bytes_ok b -> pfd_lay (pfd_of b) = b /\ PFD_wf (pfd_of b) /\ Entry_layout b (pfd_of b).
Proof.
  intros Hl Hb. split; [|split].
  - unfold pfd_lay. fproj. sdt b. rewrite !put16_get16 by (first [assumption | lia]). merge b. rewrite <- Hl. apply sub_full.
  - split; fproj.
    + repeat constructor; apply bytes_ok_znth; exact Hb.
    + repeat constructor; apply get16_u16; exact Hb.
    + split; [rewrite zlen_sub by lia; reflexivity | apply bytes_ok_sub; exact Hb].
    + split; [rewrite zlen_sub by lia; reflexivity | apply bytes_ok_sub; exact Hb].
    + split; apply DT_wf_of, bytes_ok_sub; exact Hb.
  - split; fproj; try reflexivity; try (split; reflexivity).
    + intros j Hj. rewrite znth_sub by lia. reflexivity.
    + intros j Hj. rewrite znth_sub by lia. reflexivity.
    + apply DT_layout_of; lia.
    + apply DT_layout_of; lia.
Qed.
Lemma PFD_inj fd fd' : PFD_wf fd -> PFD_wf fd' -> pfd_lay fd = pfd_lay fd' -> fd = fd'.
Proof.
  intros [_ W [L1 _] [L2 _] [D1 D2]] [_ W' [K1 _] [K2 _] [F1 F2]]. unfold pfd_lay. intros E. do 12 inj1 E.
  fall W. fall W'.
  apply put16_inj in E; [|apply W; auto 20|apply W'; auto 20].
  repeat match goal with H : put16 _ = put16 _ |- _ => apply put16_inj in H; [|apply W; auto 20|apply W'; auto 20] end.
  repeat match goal with H : DateTime_toBytes _ = DateTime_toBytes _ |- _ => apply DT_inj in H; [|assumption|assumption] end.
  clear W W' L1 L2 D1 D2 K1 K2 F1 F2. destruct fd, fd'. cbn in *. subst. reflexivity.
Qed.
Lemma PFD_bytes fd : PFD_wf fd -> bytes_ok (pfd_lay fd).
Proof.
  intros [B W [_ L1] [_ L2] [D1 D2]]. fall B. fall W. unfold pfd_lay. bok; try (apply B; auto 20; fail); try (apply put16_ok, W; auto 20; fail); apply DT_bytes; assumption.
Qed.
Lemma PFD_wf_lens fd : PFD_wf fd -> zlen (f_FileName fd) = 15 /\ zlen (f_EOF fd) = 3.
Proof. intros [_ _ [L1 _] [L2 _] _]. auto. Qed.
Lemma PFD_roundtrip fd : PFD_wf fd -> exists b, FD_toBytes fd = Ok b /\ zlen b = 39 /\ bytes_ok b /\ FD_fromBytes b = Ok fd /\ Entry_layout b fd.
Proof.
  intros W. destruct (PFD_wf_lens fd W) as [L1 L2]. destruct (PFD_To fd L1 L2) as [E L]. exists (pfd_lay fd). split; [exact E|]. split; [exact L|].
  pose proof (PFD_bytes fd W) as B. split; [exact B|]. rewrite PFD_From by exact L. destruct (PFD_lay_of _ L B) as (K & W' & Y).
  rewrite (PFD_inj _ _ W' W K) in Y |- *. auto.
Qed.

(** ** Headers *)
Definition vh_lay (h : VolumeDirectoryHeader) : bytes :=
  [vh_TypeAndNameLength h] ++ vh_VolumeName h ++ vh_Unused1 h ++ DateTime_toBytes (vh_Creation h) ++ [vh_Version h] ++ [vh_MinVersion h] ++
  [vh_Access h] ++ [vh_EntryLength h] ++ [vh_EntriesPerBlock h] ++ put16 (vh_FileCount h) ++ put16 (vh_BitMapPointer h) ++ put16 (vh_TotalBlocks h).
Definition vh_of (b : bytes) : VolumeDirectoryHeader :=
  mkVDH (znth 0 b 0) (sub b 1 0x10) (sub b 0x10 0x18) (dt_of (sub b 0x18 0x1c)) (znth 0 b 0x1c) (znth 0 b 0x1d)
          (znth 0 b 0x1e) (znth 0 b 0x1f) (znth 0 b 0x20) (get16 b 0x21) (get16 b 0x23) (get16 b 0x25).
Ltac hproj := cbn [vh_of vh_TypeAndNameLength vh_VolumeName vh_Unused1 vh_Creation vh_Version vh_MinVersion vh_Access vh_EntryLength
  vh_EntriesPerBlock vh_FileCount vh_BitMapPointer vh_TotalBlocks].
Lemma VDH_To h : VDH_wf h -> VDH_toBytes h = Ok (vh_lay h) /\ zlen (vh_lay h) = 39.
Proof.
  intros [_ _ [H _] [H1 _] _]. split.
  - unfold VDH_toBytes. cbv zeta. change (zeros 39) with ([] ++ zeros 39). do 12 fresh1. f_equal. unfold vh_lay.
    autorewrite with zl. rewrite <- !app_assoc. cbn [app].
    change (zeros (39 - 1 - (16 - 1) - (24 - 16) - (28 - 24) - 1 - 1 - 1 - 1 - 1 - 2 - 2 - 2)) with (@nil Z). reflexivity.
  - unfold vh_lay. autorewrite with zl. lia.
Qed.
Lemma VDH_From b : zlen b = 39 -> VDH_fromBytes b = Ok (vh_of b).
Proof.
  intros H. unfold VDH_fromBytes. rewrite H. cbn [negb Z.eqb Pos.eqb].
  rewrite !DT_from by (rewrite zlen_sub by lia; lia). reflexivity.
Qed.
Lemma VDH_lay_of b : zlen b = 39 -> bytes_ok b -> vh_lay (vh_of b) = b /\ VDH_wf (vh_of b) /\ VH_layout b (vh_of b).
Proof.
  intros Hl Hb. split; [|split].
  - unfold vh_lay. hproj. sdt b. rewrite !put16_get16 by (first [assumption | lia]). merge b. rewrite <- Hl. apply sub_full.
  - split; hproj.
    + repeat constructor; apply bytes_ok_znth; exact Hb.
    + repeat constructor; apply get16_u16; exact Hb.
    + split; [rewrite zlen_sub by lia; reflexivity | apply bytes_ok_sub; exact Hb].
    + split; [rewrite zlen_sub by lia; reflexivity | apply bytes_ok_sub; exact Hb].
    + apply DT_wf_of, bytes_ok_sub; exact Hb.
  - split; hproj; try reflexivity; try (split; reflexivity).
    + intros j Hj. rewrite znth_sub by lia. reflexivity.
    + apply DT_layout_of; lia.
Qed.
Lemma VDH_inj h h' : VDH_wf h -> VDH_wf h' -> vh_lay h = vh_lay h' -> h = h'.
Proof.
  intros [_ W [L1 _] [L2 _] D] [_ W' [K1 _] [K2 _] F]. unfold vh_lay. intros E. do 11 inj1 E.
  fall W. fall W'.
  apply put16_inj in E; [|apply W; auto 20|apply W'; auto 20].
  repeat match goal with H : put16 _ = put16 _ |- _ => apply put16_inj in H; [|apply W; auto 20|apply W'; auto 20] end.
  repeat match goal with H : DateTime_toBytes _ = DateTime_toBytes _ |- _ => apply DT_inj in H; [|assumption|assumption] end.
  clear W W' L1 L2 D K1 K2 F. destruct h, h'. cbn in *. subst. reflexivity.
Qed.
Lemma VDH_bytes h : VDH_wf h -> bytes_ok (vh_lay h).
Proof.
  intros [B W [_ L1] [_ L2] D]. fall B. fall W. unfold vh_lay. bok; try (apply B; auto 20; fail); try (apply put16_ok, W; auto 20; fail); apply DT_bytes; assumption.
Qed.

Definition sh_lay (h : SubdirectoryHeader) : bytes :=
  [sh_TypeAndNameLength h] ++ sh_SubdirectoryName h ++ [sh_SeventyFive h] ++ sh_Unused1 h ++ DateTime_toBytes (sh_Creation h) ++ [sh_Version h] ++ [sh_MinVersion h] ++
  [sh_Access h] ++ [sh_EntryLength h] ++ [sh_EntriesPerBlock h] ++ put16 (sh_FileCount h) ++ put16 (sh_ParentPointer h) ++ [sh_ParentEntry h] ++ [sh_ParentEntryLength h].
Definition sh_of (b : bytes) : SubdirectoryHeader :=
  mkSH (znth 0 b 0) (sub b 1 0x10) (znth 0 b 0x10) (sub b 0x11 0x18) (dt_of (sub b 0x18 0x1c)) (znth 0 b 0x1c) (znth 0 b 0x1d)
          (znth 0 b 0x1e) (znth 0 b 0x1f) (znth 0 b 0x20) (get16 b 0x21) (get16 b 0x23) (znth 0 b 0x25) (znth 0 b 0x26).
Ltac sproj := cbn [sh_of sh_TypeAndNameLength sh_SubdirectoryName sh_SeventyFive sh_Unused1 sh_Creation sh_Version sh_MinVersion sh_Access sh_EntryLength
  sh_EntriesPerBlock sh_FileCount sh_ParentPointer sh_ParentEntry sh_ParentEntryLength].
Lemma SH_To h : SH_wf h -> SH_toBytes h = Ok (sh_lay h) /\ zlen (sh_lay h) = 39.
Proof.
  intros [_ _ [H _] [H1 _] _]. split.
  - unfold SH_toBytes. cbv zeta. change (zeros 39) with ([] ++ zeros 39). do 14 fresh1. f_equal. unfold sh_lay.
    autorewrite with zl. rewrite <- !app_assoc. cbn [app].
    change (zeros (39 - 1 - (16 - 1) - 1 - (24 - 17) - (28 - 24) - 1 - 1 - 1 - 1 - 1 - 2 - 2 - 1 - 1)) with (@nil Z). reflexivity.
  - unfold sh_lay. autorewrite with zl. lia.
Qed.
Lemma SH_From b : zlen b = 39 -> SH_fromBytes b = Ok (sh_of b).
Proof.
  intros H. unfold SH_fromBytes. rewrite H. cbn [negb Z.eqb Pos.eqb].
  rewrite !DT_from by (rewrite zlen_sub by lia; lia). reflexivity.
Qed.
Lemma SH_lay_of b : zlen b = 39 -> bytes_ok b -> sh_lay (sh_of b) = b /\ SH_wf (sh_of b) /\ SH_layout b (sh_of b).
Proof.
  intros Hl Hb. split; [|split].
  - unfold sh_lay. sproj. sdt b. rewrite !put16_get16 by (first [assumption | lia]). merge b. rewrite <- Hl. apply sub_full.
  - split; sproj.
    + repeat constructor; apply bytes_ok_znth; exact Hb.
    + repeat constructor; apply get16_u16; exact Hb.
    + split; [rewrite zlen_sub by lia; reflexivity | apply bytes_ok_sub; exact Hb].
    + split; [rewrite zlen_sub by lia; reflexivity | apply bytes_ok_sub; exact Hb].
    + apply DT_wf_of, bytes_ok_sub; exact Hb.
  - split; sproj; try reflexivity; try (split; reflexivity).
    + intros j Hj. rewrite znth_sub by lia. reflexivity.
    + apply DT_layout_of; lia.
Qed.
Lemma SH_inj h h' : SH_wf h -> SH_wf h' -> sh_lay h = sh_lay h' -> h = h'.
Proof.
  intros [_ W [L1 _] [L2 _] D] [_ W' [K1 _] [K2 _] F]. unfold sh_lay. intros E. do 13 inj1 E.
  fall W. fall W'. injection E as E.
  repeat match goal with H : put16 _ = put16 _ |- _ => apply put16_inj in H; [|apply W; auto 20|apply W'; auto 20] end.
  repeat match goal with H : DateTime_toBytes _ = DateTime_toBytes _ |- _ => apply DT_inj in H; [|assumption|assumption] end.
  clear W W' L1 L2 D K1 K2 F. destruct h, h'. cbn in *. subst. reflexivity.
Qed.
Lemma SH_bytes h : SH_wf h -> bytes_ok (sh_lay h).
Proof.
  intros [B W [_ L1] [_ L2] D]. fall B. fall W. unfold sh_lay. bok; try (apply B; auto 20; fail); try (apply put16_ok, W; auto 20; fail); apply DT_bytes; assumption.
Qed.

(** ** Directory blocks *)
Local Opaque vh_lay sh_lay pfd_lay.
Lemma pfd_lens l : Forall PFD_wf l -> Forall (fun m => zlen m = 39) (map pfd_lay l).
Proof. intros H. apply Forall_map. eapply Forall_impl; [|exact H]. intros fd W. destruct (PFD_wf_lens fd W). apply PFD_To; assumption. Qed.
Lemma copyDescs_fresh start fds : forall i (p : bytes) n, Forall PFD_wf fds ->
  zlen p = start + 39 * i -> 39 * zlen fds <= n ->
  copyDescs start i fds (p ++ zeros n) = Ok ((p ++ concat (map pfd_lay fds)) ++ zeros (n - 39 * zlen fds)).
Proof.
  induction fds as [|fd fds IH]; intros i p n Hf Hp Hn; cbn [copyDescs map concat].
  - rewrite app_nil_r, (@zlen_nil FileDescriptor). do 3 f_equal. lia.
  - inversion Hf as [|? ? H1 H2]; subst. destruct (PFD_wf_lens fd H1) as [A B]. destruct (PFD_To fd A B) as [-> L]. cbn [rbind]. rewrite zlen_cons in *.
    pose proof (zlen_nonneg fds). rewrite copyInto_fresh by lia. cbn [rbind]. rewrite IH; [|exact H2 | rewrite zlen_app; lia | lia].
    rewrite app_assoc. do 3 f_equal. lia.
Qed.
Lemma map_lay_inj l l' : Forall PFD_wf l -> Forall PFD_wf l' -> map pfd_lay l = map pfd_lay l' -> l = l'.
Proof.
  intros H. revert l'. induction H as [|x l Hx Hl IH]; intros l' H'; destruct H' as [|y l' Hy Hl']; cbn [map]; intros E; try discriminate; [reflexivity|].
  pose proof (f_equal (@hd bytes []) E) as E1. pose proof (f_equal (@tl bytes) E) as E2. cbn [hd tl] in E1, E2. f_equal; [apply PFD_inj; assumption | apply IH; assumption].
Qed.
Lemma descs_bytes l : Forall PFD_wf l -> bytes_ok (concat (map pfd_lay l)).
Proof. induction 1 as [|fd l Hfd Hl IH]; cbn [map concat]; [constructor|]. apply bytes_ok_app. split; [apply PFD_bytes; exact Hfd | exact IH]. Qed.
Definition descs_of (b : bytes) (start n : Z) : list FileDescriptor := map (fun i => pfd_of (entry_at b start i)) (zrange n).
Lemma readDescs_ok b start n : 0 <= start -> start + 39 * n <= zlen b -> readDescs start n b = Ok (descs_of b start n).
Proof.
  intros Hs H. unfold readDescs. erewrite (mapres_ok _ (fun i => pfd_of (entry_at b start i))); [reflexivity|].
  intros i Hi. apply In_zrange in Hi. unfold entry_at. replace (start + i * 39) with (start + 39 * i) by lia.
  replace (start + (i + 1) * 39) with (start + 39 * i + 39) by lia. apply PFD_From. rewrite zlen_sub by lia. lia.
Qed.
Lemma descs_of_ok b start n : 0 <= start -> 0 <= n -> start + 39 * n <= zlen b -> bytes_ok b ->
  concat (map pfd_lay (descs_of b start n)) = sub b start (start + 39 * n) /\ Forall PFD_wf (descs_of b start n) /\
  zlen (descs_of b start n) = n /\ Forall2 Entry_layout (map (entry_at b start) (zrange n)) (descs_of b start n).
Proof.
  intros Hs Hn Hl Hb.
  assert (forall i, In i (zrange n) -> pfd_lay (pfd_of (entry_at b start i)) = entry_at b start i /\ PFD_wf (pfd_of (entry_at b start i)) /\
            Entry_layout (entry_at b start i) (pfd_of (entry_at b start i))) as Hfd.
  { intros i Hi. apply In_zrange in Hi. apply PFD_lay_of; [unfold entry_at; rewrite zlen_sub by lia; lia | apply bytes_ok_sub; exact Hb]. }
  split; [|split; [|split]].
  - unfold descs_of. rewrite map_map.
    rewrite (map_ext_in _ (entry_at b start)) by (intros i Hi; apply Hfd; exact Hi).
    unfold entry_at. apply concat_subs; lia.
  - apply Forall_map, Forall_forall. intros i Hi. apply Hfd. exact Hi.
  - unfold descs_of. rewrite zlen_map, zlen_zrange by lia. reflexivity.
  - unfold descs_of. assert (forall l, incl l (zrange n) -> Forall2 Entry_layout (map (entry_at b start) l) (map (fun i => pfd_of (entry_at b start i)) l)) as G.
    { induction l as [|i l IH]; intros Hi; cbn [map]; constructor; [apply Hfd, Hi; left; reflexivity | apply IH; intros j Hj; apply Hi; right; exact Hj]. }
    apply G. apply incl_refl.
Qed.

Ltac kproj := cbn [vk_block vk_Prev vk_Next vk_Header vk_Descriptors vk_Extra vb_block vb_Prev vb_Next vb_Descriptors vb_Extra
  sk_block sk_Prev sk_Next sk_Header sk_Descriptors sk_Extra sb_block sb_Prev sb_Next sb_Descriptors sb_Extra
  VDKB_SetBlock VDB_SetBlock SKB_SetBlock SB_SetBlock].

Definition vk_lay v := put16 (vk_Prev v) ++ put16 (vk_Next v) ++ vh_lay (vk_Header v) ++ concat (map pfd_lay (vk_Descriptors v)) ++ [vk_Extra v].
Definition vk_of (blk : Z) (b : bytes) := mkVDKB blk (get16 b 0) (get16 b 2) (vh_of (sub b 4 43)) (descs_of b 43 12) (znth 0 b 511).
Lemma VDKB_To v : VDKB_wf v -> VDKB_ToBlock v = Ok (vk_lay v) /\ zlen (vk_lay v) = 512.
Proof.
  intros (Wh & Wu & L & Wd & We). destruct (VDH_To _ Wh) as [Eh Lh]. pose proof (zlen_concat _ 39 (pfd_lens _ Wd)) as Lc. rewrite zlen_map, L in Lc. split.
  - unfold VDKB_ToBlock. cbv zeta. change (zeros 512) with ([] ++ zeros 512). do 2 fresh1. rewrite Eh. cbn [rbind]. fresh1.
    rewrite copyDescs_fresh; [|exact Wd|autorewrite with zl; lia|autorewrite with zl; lia]. cbn [rbind]. rewrite L.
    rewrite zset_fresh by (autorewrite with zl; lia). unfold vk_lay. autorewrite with zl. f_equal. rewrite <- !app_assoc. cbn [app].
    change (zeros (512 - 2 - 2 - (43 - 4) - 39 * 12 - 1)) with (@nil Z). reflexivity.
  - unfold vk_lay. autorewrite with zl. rewrite Lh, Lc. lia.
Qed.
Lemma VDKB_From v0 b : zlen b = 512 -> VDKB_FromBlock v0 b = Ok (vk_of (vk_block v0) b).
Proof. intros H. unfold VDKB_FromBlock. rewrite VDH_From by (rewrite zlen_sub by lia; lia). cbn [rbind]. rewrite readDescs_ok by lia. reflexivity. Qed.
Lemma VDKB_lay_of k b : is_u16 k -> zlen b = 512 -> bytes_ok b -> vk_lay (vk_of k b) = b /\ VDKB_wf (vk_of k b) /\
  VH_layout (header_of b) (vk_Header (vk_of k b)) /\
  Dir_layout b (key_slots b) (vk_Prev (vk_of k b)) (vk_Next (vk_of k b)) (vk_Descriptors (vk_of k b)) (vk_Extra (vk_of k b)).
Proof.
  intros Hk Hl Hb. destruct (VDH_lay_of (sub b 4 43)) as (E1 & E2 & E3); [rewrite zlen_sub by lia; lia | apply bytes_ok_sub; exact Hb|].
  destruct (descs_of_ok b 43 12) as (F1 & F2 & F3 & F4); try lia; [exact Hb|]. unfold vk_of. kproj. split; [|split; [|split]].
  - unfold vk_lay. kproj. rewrite E1, F1. rewrite !put16_get16 by (first [assumption | lia]). merge b. rewrite <- Hl. apply sub_full.
  - split; [exact E2|]. split; kproj; [|split; [exact F3|split; [exact F2|apply bytes_ok_znth; exact Hb]]].
    repeat constructor; try (apply Hk); apply get16_u16; exact Hb.
  - exact E3.
  - split; [reflexivity|]. split; [reflexivity|]. split; [exact F4 | reflexivity].
Qed.
Lemma VDKB_bytes v : VDKB_wf v -> bytes_ok (vk_lay v).
Proof.
  intros (Wh & Wu & L & Wd & We). fall Wu. unfold vk_lay. bok; try (apply put16_ok, Wu; auto 20; fail); [apply VDH_bytes; exact Wh | apply descs_bytes; exact Wd].
Qed.
Lemma VDKB_inj v v' : VDKB_wf v -> VDKB_wf v' -> vk_lay v = vk_lay v' -> v = VDKB_SetBlock (vk_block v) v'.
Proof.
  intros W W'. destruct (VDKB_To v W) as [_ Lv]. destruct W as (Wh & Wu & L & Wd & We), W' as (Wh' & Wu' & L' & Wd' & We').
  pose proof (zlen_concat _ 39 (pfd_lens _ Wd)) as Lc. pose proof (zlen_concat _ 39 (pfd_lens _ Wd')) as Lc'. rewrite zlen_map in Lc, Lc'.
  pose proof (proj2 (VDH_To _ Wh)). pose proof (proj2 (VDH_To _ Wh')).
  unfold vk_lay. intros E. do 4 inj1 E. injection E as E.
  match goal with H : concat _ = concat _ |- _ => apply (concat_inj_len _ _ 39) in H; [|lia|apply pfd_lens; assumption|apply pfd_lens; assumption]; apply map_lay_inj in H; [|assumption|assumption] end.
  match goal with H : vh_lay _ = vh_lay _ |- _ => apply VDH_inj in H; [|assumption|assumption] end.
  fall Wu. fall Wu'.
  repeat match goal with H : put16 _ = put16 _ |- _ => apply put16_inj in H; [|apply Wu; auto 20|apply Wu'; auto 20] end.
  clear Wh Wu Wd We Wh' Wu' Wd' We' Lv. unfold VDKB_SetBlock. destruct v, v'. kproj. cbn in *. subst. reflexivity.
Qed.
Lemma VDKB_codec v0 v b : VDKB_wf v0 ->
  (zlen b = 512 -> bytes_ok b -> exists v', VDKB_FromBlock v0 b = Ok v' /\ VDKB_wf v' /\ vk_block v' = vk_block v0 /\ VH_layout (header_of b) (vk_Header v') /\
     Dir_layout b (key_slots b) (vk_Prev v') (vk_Next v') (vk_Descriptors v') (vk_Extra v') /\ VDKB_ToBlock v' = Ok b) /\
  (VDKB_wf v -> exists b', VDKB_ToBlock v = Ok b' /\ zlen b' = 512 /\ bytes_ok b' /\ VDKB_FromBlock v0 b' = Ok (VDKB_SetBlock (vk_block v0) v)).
Proof.
  intros W0. assert (is_u16 (vk_block v0)) as K by (destruct W0 as (_ & Wu & _); inversion Wu; assumption). split.
  - intros Hl Hb. rewrite VDKB_From by exact Hl. destruct (VDKB_lay_of _ b K Hl Hb) as (E & W & Y & D). eexists. split; [reflexivity|].
    split; [exact W|]. split; [reflexivity|]. split; [exact Y|]. split; [exact D|]. rewrite (proj1 (VDKB_To _ W)), E. reflexivity.
  - intros W. destruct (VDKB_To v W) as [E L]. pose proof (VDKB_bytes v W) as B. exists (vk_lay v). split; [exact E|]. split; [exact L|]. split; [exact B|].
    rewrite VDKB_From by exact L. destruct (VDKB_lay_of _ _ K L B) as (E' & W' & _). f_equal. exact (VDKB_inj _ _ W' W E').
Qed.

Definition vb_lay v := put16 (vb_Prev v) ++ put16 (vb_Next v) ++ concat (map pfd_lay (vb_Descriptors v)) ++ [vb_Extra v].
Definition vb_of (blk : Z) (b : bytes) := mkVDB blk (get16 b 0) (get16 b 2) (descs_of b 4 13) (znth 0 b 511).
Lemma VDB_To v : VDB_wf v -> VDB_ToBlock v = Ok (vb_lay v) /\ zlen (vb_lay v) = 512.
Proof.
  intros (Wu & L & Wd & We). pose proof (zlen_concat _ 39 (pfd_lens _ Wd)) as Lc. rewrite zlen_map, L in Lc. split.
  - unfold VDB_ToBlock. cbv zeta. change (zeros 512) with ([] ++ zeros 512). do 2 fresh1.
    rewrite copyDescs_fresh; [|exact Wd|autorewrite with zl; lia|autorewrite with zl; lia]. cbn [rbind]. rewrite L.
    rewrite zset_fresh by (autorewrite with zl; lia). unfold vb_lay. autorewrite with zl. f_equal. rewrite <- !app_assoc. cbn [app].
    change (zeros (512 - 2 - 2 - 39 * 13 - 1)) with (@nil Z). reflexivity.
  - unfold vb_lay. autorewrite with zl. rewrite Lc. lia.
Qed.
Lemma VDB_From v0 b : zlen b = 512 -> VDB_FromBlock v0 b = Ok (vb_of (vb_block v0) b).
Proof. intros H. unfold VDB_FromBlock. rewrite readDescs_ok by lia. reflexivity. Qed.
Lemma VDB_lay_of k b : is_u16 k -> zlen b = 512 -> bytes_ok b -> vb_lay (vb_of k b) = b /\ VDB_wf (vb_of k b) /\
  Dir_layout b (later_slots b) (vb_Prev (vb_of k b)) (vb_Next (vb_of k b)) (vb_Descriptors (vb_of k b)) (vb_Extra (vb_of k b)).
Proof.
  intros Hk Hl Hb.
  destruct (descs_of_ok b 4 13) as (F1 & F2 & F3 & F4); try lia; [exact Hb|]. unfold vb_of. kproj. split; [|split].
  - unfold vb_lay. kproj. rewrite F1. rewrite !put16_get16 by (first [assumption | lia]). merge b. rewrite <- Hl. apply sub_full.
  - split; kproj; [|split; [exact F3|split; [exact F2|apply bytes_ok_znth; exact Hb]]].
    repeat constructor; try (apply Hk); apply get16_u16; exact Hb.
  - split; [reflexivity|]. split; [reflexivity|]. split; [exact F4 | reflexivity].
Qed.
Lemma VDB_bytes v : VDB_wf v -> bytes_ok (vb_lay v).
Proof.
  intros (Wu & L & Wd & We). fall Wu. unfold vb_lay. bok; try (apply put16_ok, Wu; auto 20; fail). apply descs_bytes; exact Wd.
Qed.
Lemma VDB_inj v v' : VDB_wf v -> VDB_wf v' -> vb_lay v = vb_lay v' -> v = VDB_SetBlock (vb_block v) v'.
Proof.
  intros W W'. destruct W as (Wu & L & Wd & We), W' as (Wu' & L' & Wd' & We').
  pose proof (zlen_concat _ 39 (pfd_lens _ Wd)) as Lc. pose proof (zlen_concat _ 39 (pfd_lens _ Wd')) as Lc'. rewrite zlen_map in Lc, Lc'.
  unfold vb_lay. intros E. do 3 inj1 E. injection E as E.
  match goal with H : concat _ = concat _ |- _ => apply (concat_inj_len _ _ 39) in H; [|lia|apply pfd_lens; assumption|apply pfd_lens; assumption]; apply map_lay_inj in H; [|assumption|assumption] end.
  fall Wu. fall Wu'.
  repeat match goal with H : put16 _ = put16 _ |- _ => apply put16_inj in H; [|apply Wu; auto 20|apply Wu'; auto 20] end.
  clear Wu Wd We Wu' Wd' We'. unfold VDB_SetBlock. destruct v, v'. kproj. cbn in *. subst. reflexivity.
Qed.
Lemma VDB_codec v0 v b : VDB_wf v0 ->
  (zlen b = 512 -> bytes_ok b -> exists v', VDB_FromBlock v0 b = Ok v' /\ VDB_wf v' /\ vb_block v' = vb_block v0 /\
     Dir_layout b (later_slots b) (vb_Prev v') (vb_Next v') (vb_Descriptors v') (vb_Extra v') /\ VDB_ToBlock v' = Ok b) /\
  (VDB_wf v -> exists b', VDB_ToBlock v = Ok b' /\ zlen b' = 512 /\ bytes_ok b' /\ VDB_FromBlock v0 b' = Ok (VDB_SetBlock (vb_block v0) v)).
Proof.
  intros W0. assert (is_u16 (vb_block v0)) as K by (destruct W0 as (Wu & _); inversion Wu; assumption). split.
  - intros Hl Hb. rewrite VDB_From by exact Hl. destruct (VDB_lay_of _ b K Hl Hb) as (E & W & D). eexists. split; [reflexivity|].
    split; [exact W|]. split; [reflexivity|]. split; [exact D|]. rewrite (proj1 (VDB_To _ W)), E. reflexivity.
  - intros W. destruct (VDB_To v W) as [E L]. pose proof (VDB_bytes v W) as B. exists (vb_lay v). split; [exact E|]. split; [exact L|]. split; [exact B|].
    rewrite VDB_From by exact L. destruct (VDB_lay_of _ _ K L B) as (E' & W' & _). f_equal. exact (VDB_inj _ _ W' W E').
Qed.

Definition sk_lay v := put16 (sk_Prev v) ++ put16 (sk_Next v) ++ sh_lay (sk_Header v) ++ concat (map pfd_lay (sk_Descriptors v)) ++ [sk_Extra v].
Definition sk_of (blk : Z) (b : bytes) := mkSKB blk (get16 b 0) (get16 b 2) (sh_of (sub b 4 43)) (descs_of b 43 12) (znth 0 b 511).
Lemma SKB_To v : SKB_wf v -> SKB_ToBlock v = Ok (sk_lay v) /\ zlen (sk_lay v) = 512.
Proof.
  intros (Wh & Wu & L & Wd & We). destruct (SH_To _ Wh) as [Eh Lh]. pose proof (zlen_concat _ 39 (pfd_lens _ Wd)) as Lc. rewrite zlen_map, L in Lc. split.
  - unfold SKB_ToBlock. cbv zeta. change (zeros 512) with ([] ++ zeros 512). do 2 fresh1. rewrite Eh. cbn [rbind]. fresh1.
    rewrite copyDescs_fresh; [|exact Wd|autorewrite with zl; lia|autorewrite with zl; lia]. cbn [rbind]. rewrite L.
    rewrite zset_fresh by (autorewrite with zl; lia). unfold sk_lay. autorewrite with zl. f_equal. rewrite <- !app_assoc. cbn [app].
    change (zeros (512 - 2 - 2 - (43 - 4) - 39 * 12 - 1)) with (@nil Z). reflexivity.
  - unfold sk_lay. autorewrite with zl. rewrite Lh, Lc. lia.
Qed.
Lemma SKB_From v0 b : zlen b = 512 -> SKB_FromBlock v0 b = Ok (sk_of (sk_block v0) b).
Proof. intros H. unfold SKB_FromBlock. rewrite SH_From by (rewrite zlen_sub by lia; lia). cbn [rbind]. rewrite readDescs_ok by lia. reflexivity. Qed.
Lemma SKB_lay_of k b : is_u16 k -> zlen b = 512 -> bytes_ok b -> sk_lay (sk_of k b) = b /\ SKB_wf (sk_of k b) /\
  SH_layout (header_of b) (sk_Header (sk_of k b)) /\
  Dir_layout b (key_slots b) (sk_Prev (sk_of k b)) (sk_Next (sk_of k b)) (sk_Descriptors (sk_of k b)) (sk_Extra (sk_of k b)).
Proof.
  intros Hk Hl Hb. destruct (SH_lay_of (sub b 4 43)) as (E1 & E2 & E3); [rewrite zlen_sub by lia; lia | apply bytes_ok_sub; exact Hb|].
  destruct (descs_of_ok b 43 12) as (F1 & F2 & F3 & F4); try lia; [exact Hb|]. unfold sk_of. kproj. split; [|split; [|split]].
  - unfold sk_lay. kproj. rewrite E1, F1. rewrite !put16_get16 by (first [assumption | lia]). merge b. rewrite <- Hl. apply sub_full.
  - split; [exact E2|]. split; kproj; [|split; [exact F3|split; [exact F2|apply bytes_ok_znth; exact Hb]]].
    repeat constructor; try (apply Hk); apply get16_u16; exact Hb.
  - exact E3.
  - split; [reflexivity|]. split; [reflexivity|]. split; [exact F4 | reflexivity].
Qed.
Lemma SKB_bytes v : SKB_wf v -> bytes_ok (sk_lay v).
Proof.
  intros (Wh & Wu & L & Wd & We). fall Wu. unfold sk_lay. bok; try (apply put16_ok, Wu; auto 20; fail); [apply SH_bytes; exact Wh | apply descs_bytes; exact Wd].
Qed.
Lemma SKB_inj v v' : SKB_wf v -> SKB_wf v' -> sk_lay v = sk_lay v' -> v = SKB_SetBlock (sk_block v) v'.
Proof.
  intros W W'. destruct (SKB_To v W) as [_ Lv]. destruct W as (Wh & Wu & L & Wd & We), W' as (Wh' & Wu' & L' & Wd' & We').
  pose proof (zlen_concat _ 39 (pfd_lens _ Wd)) as Lc. pose proof (zlen_concat _ 39 (pfd_lens _ Wd')) as Lc'. rewrite zlen_map in Lc, Lc'.
  pose proof (proj2 (SH_To _ Wh)). pose proof (proj2 (SH_To _ Wh')).
  unfold sk_lay. intros E. do 4 inj1 E. injection E as E.
  match goal with H : concat _ = concat _ |- _ => apply (concat_inj_len _ _ 39) in H; [|lia|apply pfd_lens; assumption|apply pfd_lens; assumption]; apply map_lay_inj in H; [|assumption|assumption] end.
  match goal with H : sh_lay _ = sh_lay _ |- _ => apply SH_inj in H; [|assumption|assumption] end.
  fall Wu. fall Wu'.
  repeat match goal with H : put16 _ = put16 _ |- _ => apply put16_inj in H; [|apply Wu; auto 20|apply Wu'; auto 20] end.
  clear Wh Wu Wd We Wh' Wu' Wd' We' Lv. unfold SKB_SetBlock. destruct v, v'. kproj. cbn in *. subst. reflexivity.
Qed.
Lemma SKB_codec v0 v b : SKB_wf v0 ->
  (zlen b = 512 -> bytes_ok b -> exists v', SKB_FromBlock v0 b = Ok v' /\ SKB_wf v' /\ sk_block v' = sk_block v0 /\ SH_layout (header_of b) (sk_Header v') /\
     Dir_layout b (key_slots b) (sk_Prev v') (sk_Next v') (sk_Descriptors v') (sk_Extra v') /\ SKB_ToBlock v' = Ok b) /\
  (SKB_wf v -> exists b', SKB_ToBlock v = Ok b' /\ zlen b' = 512 /\ bytes_ok b' /\ SKB_FromBlock v0 b' = Ok (SKB_SetBlock (sk_block v0) v)).
Proof.
  intros W0. assert (is_u16 (sk_block v0)) as K by (destruct W0 as (_ & Wu & _); inversion Wu; assumption). split.
  - intros Hl Hb. rewrite SKB_From by exact Hl. destruct (SKB_lay_of _ b K Hl Hb) as (E & W & Y & D). eexists. split; [reflexivity|].
    split; [exact W|]. split; [reflexivity|]. split; [exact Y|]. split; [exact D|]. rewrite (proj1 (SKB_To _ W)), E. reflexivity.
  - intros W. destruct (SKB_To v W) as [E L]. pose proof (SKB_bytes v W) as B. exists (sk_lay v). split; [exact E|]. split; [exact L|]. split; [exact B|].
    rewrite SKB_From by exact L. destruct (SKB_lay_of _ _ K L B) as (E' & W' & _). f_equal. exact (SKB_inj _ _ W' W E').
Qed.

Definition sb_lay v := put16 (sb_Prev v) ++ put16 (sb_Next v) ++ concat (map pfd_lay (sb_Descriptors v)) ++ [sb_Extra v].
Definition sb_of (blk : Z) (b : bytes) := mkSB blk (get16 b 0) (get16 b 2) (descs_of b 4 13) (znth 0 b 511).
Lemma SB_To v : SB_wf v -> SB_ToBlock v = Ok (sb_lay v) /\ zlen (sb_lay v) = 512.
Proof.
  intros (Wu & L & Wd & We). pose proof (zlen_concat _ 39 (pfd_lens _ Wd)) as Lc. rewrite zlen_map, L in Lc. split.
  - unfold SB_ToBlock. cbv zeta. change (zeros 512) with ([] ++ zeros 512). do 2 fresh1.
    rewrite copyDescs_fresh; [|exact Wd|autorewrite with zl; lia|autorewrite with zl; lia]. cbn [rbind]. rewrite L.
    rewrite zset_fresh by (autorewrite with zl; lia). unfold sb_lay. autorewrite with zl. f_equal. rewrite <- !app_assoc. cbn [app].
    change (zeros (512 - 2 - 2 - 39 * 13 - 1)) with (@nil Z). reflexivity.
  - unfold sb_lay. autorewrite with zl. rewrite Lc. lia.
Qed.
Lemma SB_From v0 b : zlen b = 512 -> SB_FromBlock v0 b = Ok (sb_of (sb_block v0) b).
Proof. intros H. unfold SB_FromBlock. rewrite readDescs_ok by lia. reflexivity. Qed.
Lemma SB_lay_of k b : is_u16 k -> zlen b = 512 -> bytes_ok b -> sb_lay (sb_of k b) = b /\ SB_wf (sb_of k b) /\
  Dir_layout b (later_slots b) (sb_Prev (sb_of k b)) (sb_Next (sb_of k b)) (sb_Descriptors (sb_of k b)) (sb_Extra (sb_of k b)).
Proof.
  intros Hk Hl Hb.
  destruct (descs_of_ok b 4 13) as (F1 & F2 & F3 & F4); try lia; [exact Hb|]. unfold sb_of. kproj. split; [|split].
  - unfold sb_lay. kproj. rewrite F1. rewrite !put16_get16 by (first [assumption | lia]). merge b. rewrite <- Hl. apply sub_full.
  - split; kproj; [|split; [exact F3|split; [exact F2|apply bytes_ok_znth; exact Hb]]].
    repeat constructor; try (apply Hk); apply get16_u16; exact Hb.
  - split; [reflexivity|]. split; [reflexivity|]. split; [exact F4 | reflexivity].
Qed.
Lemma SB_bytes v : SB_wf v -> bytes_ok (sb_lay v).
Proof.
  intros (Wu & L & Wd & We). fall Wu. unfold sb_lay. bok; try (apply put16_ok, Wu; auto 20; fail). apply descs_bytes; exact Wd.
Qed.
Lemma SB_inj v v' : SB_wf v -> SB_wf v' -> sb_lay v = sb_lay v' -> v = SB_SetBlock (sb_block v) v'.
Proof.
  intros W W'. destruct W as (Wu & L & Wd & We), W' as (Wu' & L' & Wd' & We').
  pose proof (zlen_concat _ 39 (pfd_lens _ Wd)) as Lc. pose proof (zlen_concat _ 39 (pfd_lens _ Wd')) as Lc'. rewrite zlen_map in Lc, Lc'.
  unfold sb_lay. intros E. do 3 inj1 E. injection E as E.
  match goal with H : concat _ = concat _ |- _ => apply (concat_inj_len _ _ 39) in H; [|lia|apply pfd_lens; assumption|apply pfd_lens; assumption]; apply map_lay_inj in H; [|assumption|assumption] end.
  fall Wu. fall Wu'.
  repeat match goal with H : put16 _ = put16 _ |- _ => apply put16_inj in H; [|apply Wu; auto 20|apply Wu'; auto 20] end.
  clear Wu Wd We Wu' Wd' We'. unfold SB_SetBlock. destruct v, v'. kproj. cbn in *. subst. reflexivity.
Qed.
Lemma SB_codec v0 v b : SB_wf v0 ->
  (zlen b = 512 -> bytes_ok b -> exists v', SB_FromBlock v0 b = Ok v' /\ SB_wf v' /\ sb_block v' = sb_block v0 /\
     Dir_layout b (later_slots b) (sb_Prev v') (sb_Next v') (sb_Descriptors v') (sb_Extra v') /\ SB_ToBlock v' = Ok b) /\
  (SB_wf v -> exists b', SB_ToBlock v = Ok b' /\ zlen b' = 512 /\ bytes_ok b' /\ SB_FromBlock v0 b' = Ok (SB_SetBlock (sb_block v0) v)).
Proof.
  intros W0. assert (is_u16 (sb_block v0)) as K by (destruct W0 as (Wu & _); inversion Wu; assumption). split.
  - intros Hl Hb. rewrite SB_From by exact Hl. destruct (SB_lay_of _ b K Hl Hb) as (E & W & D). eexists. split; [reflexivity|].
    split; [exact W|]. split; [reflexivity|]. split; [exact D|]. rewrite (proj1 (SB_To _ W)), E. reflexivity.
  - intros W. destruct (SB_To v W) as [E L]. pose proof (SB_bytes v W) as B. exists (sb_lay v). split; [exact E|]. split; [exact L|]. split; [exact B|].
    rewrite SB_From by exact L. destruct (SB_lay_of _ _ K L B) as (E' & W' & _). f_equal. exact (SB_inj _ _ W' W E').
Qed.
