(** Dos3CodecProofs.v -- the struct/sector codecs of package dos3 (C11-C13). *)
From Verif Require Import GoBase GoLemmas DiskModel DiskSpec DiskProofs TypesModel Dos3Model CodecLemmas Dos3Spec.
From Coq Require Import ZifyBool ZifyNat.
Ltac Zify.zify_post_hook ::= Z.div_mod_to_equations.
Local Opaque zrange zeros sub.

Ltac lens := repeat (progress (rewrite ?zlen_app, ?zlen_cons, ?zlen_nil, ?zlen_put16 in *)); try (unfold zlen; cbn [length]); lia.
Ltac fresh1 := first [rewrite zset_fresh by (autorewrite with zl; lia)
                     |rewrite copyInto_fresh by (autorewrite with zl; lia)
                     |rewrite upd_fresh by (autorewrite with zl; lia)]; cbn [rbind].
Ltac inj1 E := lazymatch type of E with
  | (_ :: nil) ++ _ = _ => apply app_single_inj in E; destruct E as [? E]
  | _ => apply app_inj_len in E; [destruct E as [? E] | autorewrite with zl; lia]
  end.

Lemma i8_u8 x : -128 <= x < 128 -> i8 (u8 x) = x.
Proof. unfold i8, u8. lia. Qed.
Lemma u8_i8 x : is_byte x -> u8 (i8 x) = x.
Proof. unfold i8, u8, is_byte. lia. Qed.
Lemma i8_range x : -128 <= i8 x < 128.
Proof. unfold i8. lia. Qed.

(** ** VTOC *)
Definition vtoc_lay (v : VTOC) : bytes :=
  [v_Unused1 v] ++ [v_CatalogTrack v] ++ [v_CatalogSector v] ++ [v_DOSRelease v] ++ v_Unused2 v ++ [v_Volume v] ++
  v_Unused3 v ++ [v_TSLMaxSize v] ++ v_Unused4 v ++ [v_LastTrack v] ++ [u8 (v_TrackDirection v)] ++ v_Unused5 v ++
  [v_NumTracks v] ++ [v_NumSectors v] ++ put16 (v_BytesPerSector v) ++ concat (v_FreeSectors v).

Definition VTOC_lens (v : VTOC) : Prop :=
  zlen (v_Unused2 v) = 2 /\ zlen (v_Unused3 v) = 32 /\ zlen (v_Unused4 v) = 8 /\ zlen (v_Unused5 v) = 2 /\
  zlen (v_FreeSectors v) = 50 /\ Forall (fun m => zlen m = 4) (v_FreeSectors v).
Lemma VTOC_wf_lens v : VTOC_wf v -> VTOC_lens v.
Proof.
  intros [_ _ [H2 _] [H3 _] [H4 _] [H5 _] _ _ [H6 H7]]. unfold VTOC_lens. repeat (split; [assumption|]).
  eapply Forall_impl; [|exact H7]. intros m [H _]. exact H.
Qed.
Lemma VTOC_To_lay v : VTOC_lens v -> VTOC_ToSector v = Ok (vtoc_lay v) /\ zlen (vtoc_lay v) = 256.
Proof.
  intros (H2 & H3 & H4 & H5 & H6 & H7). pose proof (zlen_concat _ 4 H7) as H8. split.
  - unfold VTOC_ToSector. cbv zeta. change (zeros 256) with ([] ++ zeros 256).
    do 15 fresh1.
    rewrite copyEach_fresh; [|exact H7|lia|autorewrite with zl; lia|autorewrite with zl; unfold bytes in *; lia].
    f_equal. unfold vtoc_lay. unfold bytes in *. rewrite H6. autorewrite with zl. rewrite <- !app_assoc. cbn [app].
    change (zeros (256 - 1 - 1 - 1 - 1 - (6 - 4) - 1 - (39 - 7) - 1 - (48 - 40) - 1 - 1 - (52 - 50) - 1 - 1 - 2 - 4 * 50)) with (@nil Z).
    rewrite app_nil_r. reflexivity.
  - unfold vtoc_lay. autorewrite with zl. rewrite H2, H3, H4, H5, H8, H6. lia.
Qed.
Ltac znorm := repeat match goal with
  | |- context [Z.mul ?a ?b] => let c := eval compute in (Z.mul a b) in change (Z.mul a b) with c
  | |- context [Z.add ?a ?b] => let c := eval compute in (Z.add a b) in change (Z.add a b) with c
  end.
Ltac merge b := rewrite ?(sub_znth b) by lia; znorm; rewrite <- !(sub_app_split b) by lia.
Ltac vproj := cbn [v_Track v_Sector v_Unused1 v_CatalogTrack v_CatalogSector v_DOSRelease v_Unused2 v_Volume v_Unused3 v_TSLMaxSize
  v_Unused4 v_LastTrack v_TrackDirection v_Unused5 v_NumTracks v_NumSectors v_BytesPerSector v_FreeSectors].
Lemma VTOC_From_lay b v0 : zlen b = 256 -> bytes_ok b -> exists v, VTOC_FromSector v0 b = Ok v /\
  vtoc_lay v = b /\ v_Track v = v_Track v0 /\ v_Sector v = v_Sector v0 /\
  (is_byte (v_Track v0) -> is_byte (v_Sector v0) -> VTOC_wf v).
Proof.
  intros Hl Hb. unfold VTOC_FromSector. rewrite Hl. cbn [negb Z.eqb Pos.eqb]. eexists. split; [reflexivity|].
  split; [|split; [reflexivity|]; split; [reflexivity|]].
  - unfold vtoc_lay. cbn [v_Unused1 v_CatalogTrack v_CatalogSector v_DOSRelease v_Unused2 v_Volume v_Unused3 v_TSLMaxSize
      v_Unused4 v_LastTrack v_TrackDirection v_Unused5 v_NumTracks v_NumSectors v_BytesPerSector v_FreeSectors].
    rewrite u8_i8 by (apply bytes_ok_znth; exact Hb).
    rewrite put16_get16 by (first [assumption | lia]).
    rewrite concat_subs by lia.
    merge b. rewrite <- Hl. apply sub_full.
  - intros Ht Hs. split; vproj; auto.
    + repeat constructor; apply bytes_ok_znth; exact Hb.
    + split; [rewrite zlen_sub by lia; reflexivity | apply bytes_ok_sub; exact Hb].
    + split; [rewrite zlen_sub by lia; reflexivity | apply bytes_ok_sub; exact Hb].
    + split; [rewrite zlen_sub by lia; reflexivity | apply bytes_ok_sub; exact Hb].
    + split; [rewrite zlen_sub by lia; reflexivity | apply bytes_ok_sub; exact Hb].
    + apply i8_range.
    + apply get16_u16; exact Hb.
    + split; [rewrite zlen_map, zlen_zrange by lia; reflexivity|].
      apply Forall_map, Forall_forall. intros i Hi. apply In_zrange in Hi.
      split; [rewrite zlen_sub by lia; lia | apply bytes_ok_sub; exact Hb].
Qed.
Lemma u8_inj8 x y : -128 <= x < 128 -> -128 <= y < 128 -> u8 x = u8 y -> x = y.
Proof. unfold u8. lia. Qed.
Lemma VTOC_lay_inj v v' : VTOC_wf v -> VTOC_wf v' -> vtoc_lay v = vtoc_lay v' ->
  v = VTOC_setTS (v_Track v) (v_Sector v) v'.
Proof.
  intros W W'. destruct (VTOC_wf_lens v W) as (H2 & H3 & H4 & H5 & H6 & H7).
  destruct (VTOC_wf_lens v' W') as (K2 & K3 & K4 & K5 & K6 & K7). unfold vtoc_lay. intros E.
  do 15 inj1 E. apply (concat_inj_len _ _ 4) in E; [|lia|assumption|assumption].
  repeat match goal with H : u8 _ = u8 _ |- _ => apply u8_inj8 in H; [|apply W|apply W'] end.
  repeat match goal with H : put16 _ = put16 _ |- _ => apply put16_inj in H; [|apply W|apply W'] end.
  clear H2 H3 H4 H5 H6 H7 K2 K3 K4 K5 K6 K7 W W'. destruct v, v'. unfold VTOC_setTS. cbn in *. subst. reflexivity.
Qed.
Lemma bytes_ok_concat l n : Forall (arr n) l -> bytes_ok (concat l).
Proof. induction 1 as [|m l [_ Hm] Hl IH]; cbn [concat]; [constructor | apply bytes_ok_app; auto]. Qed.
Lemma bytes1 x : is_byte x -> bytes_ok [x].
Proof. intros; constructor; [assumption | constructor]. Qed.
Ltac bok := repeat (apply bytes_ok_app; split); try (apply bytes1); try assumption.
Lemma VTOC_lay_bytes v : VTOC_wf v -> bytes_ok (vtoc_lay v).
Proof.
  intros [_ Hb [_ H2] [_ H3] [_ H4] [_ H5] Hd Hw [_ Hf]]. rewrite Forall_forall in Hb. cbn in Hb. unfold vtoc_lay. bok; try (apply Hb; auto 20; fail).
  - unfold u8, is_byte; lia.
  - apply put16_ok; exact Hw.
  - eapply bytes_ok_concat; exact Hf.
Qed.
Lemma VTOC_roundtrip v0 v : VTOC_wf v0 -> VTOC_wf v -> exists b, VTOC_ToSector v = Ok b /\ zlen b = 256 /\ bytes_ok b /\
  VTOC_FromSector v0 b = Ok (VTOC_setTS (v_Track v0) (v_Sector v0) v).
Proof.
  intros W0 W. destruct (VTOC_To_lay v (VTOC_wf_lens v W)) as [E L]. exists (vtoc_lay v). split; [exact E|]. split; [exact L|].
  pose proof (VTOC_lay_bytes v W) as B. split; [exact B|].
  destruct (VTOC_From_lay _ v0 L B) as (v' & E' & L' & T & S & W'). rewrite E'. f_equal.
  destruct (vw_ts v0 W0) as [T0 S0].
  rewrite (VTOC_lay_inj v' v (W' T0 S0) W L'). rewrite T, S. reflexivity.
Qed.
Ltac at_pos n := cbn [Z.add]; rewrite ?znth_app by (autorewrite with zl; lia).
Lemma VTOC_layout_ok v : VTOC_wf v -> VTOC_layout (vtoc_lay v) v.
Proof.
  intros W. pose proof (VTOC_wf_lens v W) as (H2 & H3 & H4 & H5 & H6 & H7). pose proof W as W0. destruct W as [_ Hb _ _ _ _ Hd Hw _].
  destruct (VTOC_To_lay v (VTOC_wf_lens v W0)) as [_ L]. pose proof (VTOC_lay_bytes v W0) as B.
  destruct (VTOC_From_lay _ v L B) as (v' & E' & L' & T & S & W'). 
  assert (v' = v) as ->.
  { rewrite (VTOC_lay_inj v' v (W' (proj1 (vw_ts v W0)) (proj2 (vw_ts v W0))) W0 L'). rewrite T, S. destruct v; reflexivity. }
  clear L' T S W'. set (b := vtoc_lay v) in *. clearbody b.
  unfold VTOC_FromSector in E'. rewrite L in E'. cbn [negb Z.eqb Pos.eqb] in E'. apply (f_equal (fun r => match r with Ok x => x | _ => v end)) in E'.
  assert (forall (A : Type) (f : VTOC -> A), f v = f v) as Hf by reflexivity.
  split.
  - rewrite <- E'. split; reflexivity.
  - rewrite <- E'. reflexivity.
  - rewrite <- E'. reflexivity.
  - rewrite <- E'. reflexivity.
  - rewrite <- E'. split; [reflexivity|]. cbn [v_TrackDirection]. pose proof (bytes_ok_znth b 49 B). unfold i8, is_byte in *.
    destruct (Z.ltb_spec (znth 0 b 49) 128); lia.
  - rewrite <- E'. repeat split.
  - intros t j Ht Hj. rewrite <- E'. cbn [v_FreeSectors]. rewrite (znth_map _ 0) by (rewrite zlen_zrange by lia; lia).
    rewrite znth_zrange by lia. rewrite znth_sub by lia. f_equal; lia.
Qed.

(** ** FileDesc *)
Definition fd_lay (fd : FileDesc) : bytes :=
  [fd_Track fd] ++ [fd_Sector fd] ++ [fd_Filetype fd] ++ fd_Filename fd ++ put16 (fd_SectorCount fd).
Lemma FD_To_lay fd : zlen (fd_Filename fd) = 30 -> FileDesc_ToBytes fd = Ok (fd_lay fd) /\ zlen (fd_lay fd) = 35.
Proof.
  intros H. split.
  - unfold FileDesc_ToBytes. cbv zeta. change (zeros 35) with ([] ++ zeros 35). do 5 fresh1. f_equal. unfold fd_lay.
    rewrite <- !app_assoc. cbn [app]. autorewrite with zl.
    change (zeros (35 - 1 - 1 - 1 - (33 - 3) - 2)) with (@nil Z). rewrite app_nil_r. reflexivity.
  - unfold fd_lay. autorewrite with zl. lia.
Qed.
Definition fd_of (b : bytes) : FileDesc := mkFD (znth 0 b 0) (znth 0 b 1) (znth 0 b 2) (sub b 3 33) (get16 b 33).
Lemma FD_From b : zlen b = 35 -> FileDesc_FromBytes b = Ok (fd_of b).
Proof. intros H. unfold FileDesc_FromBytes. rewrite H. reflexivity. Qed.
Lemma FD_of_lay b : zlen b = 35 -> bytes_ok b -> fd_lay (fd_of b) = b /\ FD_wf (fd_of b).
Proof.
  intros Hl Hb. split.
  - unfold fd_lay, fd_of. cbn [fd_Track fd_Sector fd_Filetype fd_Filename fd_SectorCount].
    rewrite put16_get16 by (first [assumption | lia]). merge b. rewrite <- Hl. apply sub_full.
  - split; cbn [fd_Track fd_Sector fd_Filetype fd_Filename fd_SectorCount fd_of].
    + repeat constructor; apply bytes_ok_znth; exact Hb.
    + split; [rewrite zlen_sub by lia; reflexivity | apply bytes_ok_sub; exact Hb].
    + apply get16_u16; exact Hb.
Qed.
Lemma FD_lay_inj fd fd' : FD_wf fd -> FD_wf fd' -> fd_lay fd = fd_lay fd' -> fd = fd'.
Proof.
  intros [_ [L _] C] [_ [L' _] C']. unfold fd_lay. intros E. do 4 inj1 E. apply put16_inj in E; [|assumption|assumption].
  clear L L' C C'. destruct fd, fd'. cbn in *. subst. reflexivity.
Qed.
Lemma FD_lay_bytes fd : FD_wf fd -> bytes_ok (fd_lay fd).
Proof.
  intros [Hb [_ H2] Hc]. rewrite Forall_forall in Hb. cbn in Hb. unfold fd_lay. bok; try (apply Hb; auto 20; fail). apply put16_ok; exact Hc.
Qed.
Lemma FD_roundtrip fd : FD_wf fd -> exists b, FileDesc_ToBytes fd = Ok b /\ zlen b = 35 /\ bytes_ok b /\ FileDesc_FromBytes b = Ok fd /\ FD_layout b fd.
Proof.
  intros W. pose proof W as [_ [L _] _]. destruct (FD_To_lay fd L) as [E El]. exists (fd_lay fd). split; [exact E|]. split; [exact El|].
  pose proof (FD_lay_bytes fd W) as B. split; [exact B|]. rewrite FD_From by exact El.
  destruct (FD_of_lay _ El B) as [K W']. assert (fd_of (fd_lay fd) = fd) as Ef by (apply FD_lay_inj; assumption).
  split; [f_equal; exact Ef|]. set (b := fd_lay fd) in *. clearbody b. rewrite <- Ef. split; try (split; reflexivity); try reflexivity.
  intros j Hj. cbn [fd_of fd_Filename]. rewrite znth_sub by lia. reflexivity.
Qed.

(** ** CatalogSector *)
Definition cs_lay (cs : CatalogSector) : bytes :=
  [cs_Unused1 cs] ++ [cs_NextTrack cs] ++ [cs_NextSector cs] ++ cs_Unused2 cs ++ concat (map fd_lay (cs_FileDescs cs)).
Lemma copyFileDescs_fresh fds : forall i (p : bytes) n, Forall (fun fd => zlen (fd_Filename fd) = 30) fds ->
  zlen p = 11 + 35 * i -> 35 * zlen fds <= n ->
  copyFileDescs i fds (p ++ zeros n) = Ok ((p ++ concat (map fd_lay fds)) ++ zeros (n - 35 * zlen fds)).
Proof.
  induction fds as [|fd fds IH]; intros i p n Hf Hp Hn; cbn [copyFileDescs map concat].
  - rewrite app_nil_r, (@zlen_nil FileDesc). do 3 f_equal. lia.
  - inversion Hf as [|? ? H1 H2]; subst. destruct (FD_To_lay fd H1) as [-> L]. cbn [rbind]. rewrite zlen_cons in *.
    pose proof (zlen_nonneg fds). rewrite copyInto_fresh by lia. cbn [rbind]. rewrite IH; [|exact H2 | rewrite zlen_app; lia | lia].
    rewrite app_assoc. do 3 f_equal. lia.
Qed.
Lemma fd_lays l : Forall (fun fd => zlen (fd_Filename fd) = 30) l -> Forall (fun m => zlen m = 35) (map fd_lay l).
Proof. intros H. apply Forall_map. eapply Forall_impl; [|exact H]. intros fd Hfd. apply FD_To_lay. exact Hfd. Qed.
Definition CS_lens (cs : CatalogSector) : Prop :=
  zlen (cs_Unused2 cs) = 8 /\ zlen (cs_FileDescs cs) = 7 /\ Forall (fun fd => zlen (fd_Filename fd) = 30) (cs_FileDescs cs).
Lemma CS_wf_lens cs : CS_wf cs -> CS_lens cs.
Proof.
  intros [_ _ [H _] [H1 H2]]. split; [exact H|]. split; [exact H1|]. eapply Forall_impl; [|exact H2]. intros fd [_ [L _] _]. exact L.
Qed.
Lemma CS_To_lay cs : CS_lens cs -> CatalogSector_ToSector cs = Ok (cs_lay cs) /\ zlen (cs_lay cs) = 256.
Proof.
  intros (H2 & H6 & H7). split.
  - unfold CatalogSector_ToSector. cbv zeta. change (zeros 256) with ([] ++ zeros 256). do 4 fresh1.
    rewrite copyFileDescs_fresh; [|exact H7 | autorewrite with zl; lia | lia].
    rewrite H6. f_equal. unfold cs_lay. rewrite <- !app_assoc. cbn [app].
    change (zeros (256 - 1 - 1 - 1 - (11 - 3) - 35 * 7)) with (@nil Z). rewrite app_nil_r. reflexivity.
  - unfold cs_lay. autorewrite with zl. rewrite (zlen_concat _ 35 (fd_lays _ H7)), zlen_map, H2, H6. reflexivity.
Qed.
Lemma mapres_ok {A B} (f : A -> res B) (g : A -> B) l : (forall x, In x l -> f x = Ok (g x)) -> mapres f l = Ok (map g l).
Proof.
  induction l as [|x l IH]; intros H; [reflexivity|]. cbn [mapres map]. rewrite H by (left; reflexivity). cbn [rbind].
  rewrite IH by (intros y Hy; apply H; right; exact Hy). reflexivity.
Qed.
Definition cs_of (cs0 : CatalogSector) (b : bytes) : CatalogSector :=
  mkCS (cs_Track cs0) (cs_Sector cs0) (znth 0 b 0) (znth 0 b 1) (znth 0 b 2) (sub b 3 11)
    (map (fun i => fd_of (sub b (11 + 35 * i) (11 + 35 * i + 35))) (zrange 7)).
Lemma CS_From cs0 b : zlen b = 256 -> CatalogSector_FromSector cs0 b = Ok (cs_of cs0 b).
Proof.
  intros H. unfold CatalogSector_FromSector. rewrite H. cbn [negb Z.eqb Pos.eqb].
  erewrite (mapres_ok _ (fun i => fd_of (sub b (11 + 35 * i) (11 + 35 * i + 35)))); [reflexivity|].
  intros i Hi. apply In_zrange in Hi. replace (11 + 35 * (i + 1)) with (11 + 35 * i + 35) by lia. apply FD_From. rewrite zlen_sub by lia. lia.
Qed.
Ltac cproj := cbn [cs_of cs_Track cs_Sector cs_Unused1 cs_NextTrack cs_NextSector cs_Unused2 cs_FileDescs].
Lemma CS_of_lay cs0 b : zlen b = 256 -> bytes_ok b -> cs_lay (cs_of cs0 b) = b /\
  (is_byte (cs_Track cs0) -> is_byte (cs_Sector cs0) -> CS_wf (cs_of cs0 b)).
Proof.
  intros Hl Hb.
  assert (forall i, In i (zrange 7) -> fd_lay (fd_of (sub b (11 + 35 * i) (11 + 35 * i + 35))) = sub b (11 + 35 * i) (11 + 35 * i + 35) /\
            FD_wf (fd_of (sub b (11 + 35 * i) (11 + 35 * i + 35)))) as Hfd.
  { intros i Hi. apply In_zrange in Hi. apply FD_of_lay; [rewrite zlen_sub by lia; lia | apply bytes_ok_sub; exact Hb]. }
  split.
  - unfold cs_lay. cproj. rewrite map_map.
    rewrite (map_ext_in _ (fun i => sub b (11 + 35 * i) (11 + 35 * i + 35))) by (intros i Hi; apply Hfd; exact Hi).
    rewrite concat_subs by lia. merge b. rewrite <- Hl. apply sub_full.
  - intros Ht Hs. split; cproj; auto.
    + repeat constructor; apply bytes_ok_znth; exact Hb.
    + split; [rewrite zlen_sub by lia; reflexivity | apply bytes_ok_sub; exact Hb].
    + split; [rewrite zlen_map, zlen_zrange by lia; reflexivity|]. apply Forall_map, Forall_forall. intros i Hi. apply Hfd. exact Hi.
Qed.
Lemma map_lay_inj l l' : Forall FD_wf l -> Forall FD_wf l' -> map fd_lay l = map fd_lay l' -> l = l'.
Proof.
  intros H. revert l'. induction H as [|x l Hx Hl IH]; intros l' H'; destruct H' as [|y l' Hy Hl']; cbn [map]; intros E; try discriminate; [reflexivity|].
  pose proof (f_equal (@hd bytes []) E) as E1. pose proof (f_equal (@tl bytes) E) as E2. cbn [hd tl] in E1, E2. f_equal; [apply FD_lay_inj; assumption | apply IH; assumption].
Qed.
Lemma CS_lay_inj cs cs' : CS_wf cs -> CS_wf cs' -> cs_lay cs = cs_lay cs' -> cs = CS_setTS (cs_Track cs) (cs_Sector cs) cs'.
Proof.
  intros W W'. destruct (CS_wf_lens cs W) as (H2 & H6 & H7). destruct (CS_wf_lens cs' W') as (K2 & K6 & K7). unfold cs_lay. intros E.
  do 4 inj1 E. apply (concat_inj_len _ _ 35) in E; [|lia|apply fd_lays; assumption|apply fd_lays; assumption].
  apply map_lay_inj in E; [|apply W|apply W']. clear W W' H2 H6 H7 K2 K6 K7. destruct cs, cs'. unfold CS_setTS. cbn in *. subst. reflexivity.
Qed.
Lemma CS_lay_bytes cs : CS_wf cs -> bytes_ok (cs_lay cs).
Proof.
  intros [_ Hb [_ H2] [_ Hf]]. rewrite Forall_forall in Hb. cbn in Hb. unfold cs_lay. bok; try (apply Hb; auto 20; fail).
  clear -Hf. induction Hf as [|fd l Hfd Hl IH]; cbn [map concat]; [constructor|]. apply bytes_ok_app. split; [apply FD_lay_bytes; exact Hfd | exact IH].
Qed.
Lemma CS_roundtrip cs0 cs : CS_wf cs0 -> CS_wf cs -> exists b, CatalogSector_ToSector cs = Ok b /\ zlen b = 256 /\ bytes_ok b /\
  CatalogSector_FromSector cs0 b = Ok (CS_setTS (cs_Track cs0) (cs_Sector cs0) cs) /\
  znth 0 b 1 = cs_NextTrack cs /\ znth 0 b 2 = cs_NextSector cs /\
  forall i, 0 <= i < 7 -> FileDesc_ToBytes (znth zeroFD (cs_FileDescs cs) i) = Ok (slot b i).
Proof.
  intros W0 W. pose proof (CS_wf_lens cs W) as Ln. destruct (CS_To_lay cs Ln) as [E L]. exists (cs_lay cs).
  split; [exact E|]. split; [exact L|]. pose proof (CS_lay_bytes cs W) as B. split; [exact B|].
  rewrite CS_From by exact L. destruct (CS_of_lay cs0 _ L B) as [K W']. destruct (cw_ts cs0 W0) as [T0 S0]. specialize (W' T0 S0).
  assert (cs_of cs0 (cs_lay cs) = CS_setTS (cs_Track cs0) (cs_Sector cs0) cs) as Ec.
  { pose proof (CS_lay_inj _ _ W' W K) as Ei. cbn [cs_of cs_Track cs_Sector] in Ei. exact Ei. }
  split; [f_equal; exact Ec|]. split; [|split].
  - change (cs_NextTrack cs) with (cs_NextTrack (CS_setTS (cs_Track cs0) (cs_Sector cs0) cs)). rewrite <- Ec. reflexivity.
  - change (cs_NextSector cs) with (cs_NextSector (CS_setTS (cs_Track cs0) (cs_Sector cs0) cs)). rewrite <- Ec. reflexivity.
  - intros i Hi. change (cs_FileDescs cs) with (cs_FileDescs (CS_setTS (cs_Track cs0) (cs_Sector cs0) cs)). rewrite <- Ec.
    cproj. rewrite (znth_map _ 0) by (rewrite zlen_zrange by lia; lia). rewrite znth_zrange by lia. unfold slot.
    destruct (FD_of_lay (sub (cs_lay cs) (11 + 35 * i) (11 + 35 * i + 35))) as [Kf [_ [Lf _] _]].
    { rewrite zlen_sub by lia. lia. } { apply bytes_ok_sub; exact B. }
    destruct (FD_To_lay _ Lf) as [Ef _]. rewrite Ef. f_equal. exact Kf.
Qed.

(** ** TrackSectorList *)
Definition pair_bytes2 (p : Z * Z) : bytes := [fst p; snd p].
Definition tsl_lay (l : TrackSectorList) : bytes :=
  [tsl_Unused1 l] ++ [tsl_NextTrack l] ++ [tsl_NextSector l] ++ tsl_Unused2 l ++ put16 (tsl_SectorOffset l) ++ tsl_Unused3 l ++
  concat (map pair_bytes2 (tsl_TrackSectors l)).
Lemma pair_lens l : Forall (fun m => zlen m = 2) (map pair_bytes2 l).
Proof. apply Forall_map, Forall_forall. reflexivity. Qed.
Lemma putTrackSectors_fresh tss : forall i (p : bytes) n, zlen p = 12 + i * 2 -> 2 * zlen tss <= n ->
  putTrackSectors i tss (p ++ zeros n) = (p ++ concat (map pair_bytes2 tss)) ++ zeros (n - 2 * zlen tss).
Proof.
  induction tss as [|ts tss IH]; intros i p n Hp Hn; cbn [putTrackSectors map concat].
  - rewrite app_nil_r. f_equal. f_equal. unfold zlen; cbn [length]; lia.
  - rewrite zlen_cons in *. pose proof (zlen_nonneg tss). rewrite zset_fresh by lia. rewrite zset_fresh by (autorewrite with zl; lia).
    rewrite IH by (autorewrite with zl; lia). unfold pair_bytes2 at 2. rewrite <- !app_assoc. cbn [app]. do 4 f_equal. f_equal. lia.
Qed.
Definition TSL_lens (l : TrackSectorList) : Prop := zlen (tsl_Unused2 l) = 2 /\ zlen (tsl_Unused3 l) = 5 /\ zlen (tsl_TrackSectors l) = 122.
Lemma TSL_wf_lens l : TSL_wf l -> TSL_lens l.
Proof. intros [_ _ [H2 _] [H3 _] _ [H4 _]]. repeat split; assumption. Qed.
Lemma TSL_To_lay l : TSL_lens l -> TSL_ToSector l = Ok (tsl_lay l) /\ zlen (tsl_lay l) = 256.
Proof.
  intros (H2 & H3 & H4). split.
  - unfold TSL_ToSector. cbv zeta. change (zeros 256) with ([] ++ zeros 256). do 6 fresh1.
    rewrite putTrackSectors_fresh by (autorewrite with zl; lia). rewrite H4. f_equal. unfold tsl_lay. autorewrite with zl. rewrite <- !app_assoc. cbn [app].
    change (zeros (256 - 1 - 1 - 1 - (5 - 3) - 2 - (12 - 7) - 2 * 122)) with (@nil Z). rewrite app_nil_r. reflexivity.
  - unfold tsl_lay. autorewrite with zl. rewrite (zlen_concat _ 2 (pair_lens _)), zlen_map, H2, H3, H4. reflexivity.
Qed.
Definition tsl_of (l0 : TrackSectorList) (b : bytes) : TrackSectorList :=
  mkTSL (tsl_Track l0) (tsl_Sector l0) (znth 0 b 0) (znth 0 b 1) (znth 0 b 2) (sub b 3 5) (get16 b 5) (sub b 7 12)
    (map (fun i => (znth 0 b (12 + i * 2), znth 0 b (13 + i * 2))) (zrange 122)).
Lemma TSL_From l0 b : zlen b = 256 -> TSL_FromSector l0 b = Ok (tsl_of l0 b).
Proof. intros H. unfold TSL_FromSector. rewrite H. reflexivity. Qed.
Lemma TSL_pairs l0 b : tsl_TrackSectors (tsl_of l0 b) = pairs b.
Proof.
  cbn [tsl_of tsl_TrackSectors]. unfold pairs, pair_at. apply map_ext. intros i. f_equal; f_equal; lia.
Qed.
Ltac tproj := cbn [tsl_of tsl_Track tsl_Sector tsl_Unused1 tsl_NextTrack tsl_NextSector tsl_Unused2 tsl_SectorOffset tsl_Unused3 tsl_TrackSectors].
Lemma TSL_of_lay l0 b : zlen b = 256 -> bytes_ok b -> tsl_lay (tsl_of l0 b) = b /\
  (is_byte (tsl_Track l0) -> is_byte (tsl_Sector l0) -> TSL_wf (tsl_of l0 b)).
Proof.
  intros Hl Hb. split.
  - unfold tsl_lay. tproj. rewrite map_map.
    rewrite (map_ext_in _ (fun i => sub b (12 + 2 * i) (12 + 2 * i + 2))).
    2: { intros i Hi. apply In_zrange in Hi. unfold pair_bytes2. cbn [fst snd]. rewrite (sub_app_split b _ (12 + 2 * i + 1)) by lia.
         rewrite (sub_single 0) by lia. replace (12 + 2 * i + 2) with (12 + 2 * i + 1 + 1) by lia. rewrite (sub_single 0) by lia.
         cbn [app]. f_equal; [f_equal; lia|]. f_equal. f_equal. lia. }
    rewrite concat_subs by lia. rewrite put16_get16 by (first [assumption | lia]). merge b. rewrite <- Hl. apply sub_full.
  - intros Ht Hs. split; tproj; auto.
    + repeat constructor; apply bytes_ok_znth; exact Hb.
    + split; [rewrite zlen_sub by lia; reflexivity | apply bytes_ok_sub; exact Hb].
    + split; [rewrite zlen_sub by lia; reflexivity | apply bytes_ok_sub; exact Hb].
    + apply get16_u16; exact Hb.
    + split; [rewrite zlen_map, zlen_zrange by lia; reflexivity|]. apply Forall_map, Forall_forall. intros i Hi.
      cbn [fst snd]. split; apply bytes_ok_znth; exact Hb.
Qed.
Lemma map_pair_inj l l' : map pair_bytes2 l = map pair_bytes2 l' -> l = l'.
Proof.
  revert l'. induction l as [|[a b] l IH]; intros [|[a' b'] l']; cbn [map]; unfold pair_bytes2; cbn [fst snd]; intros E; try discriminate; [reflexivity|].
  inversion E; subst. f_equal. apply IH. assumption.
Qed.
Lemma TSL_lay_inj l l' : TSL_wf l -> TSL_wf l' -> tsl_lay l = tsl_lay l' -> l = TSL_setTS (tsl_Track l) (tsl_Sector l) l'.
Proof.
  intros W W'. destruct (TSL_wf_lens l W) as (H2 & H3 & H4). destruct (TSL_wf_lens l' W') as (K2 & K3 & K4). unfold tsl_lay. intros E.
  do 6 inj1 E. apply (concat_inj_len _ _ 2) in E; [|lia|apply pair_lens|apply pair_lens]. apply map_pair_inj in E.
  repeat match goal with H : put16 _ = put16 _ |- _ => apply put16_inj in H; [|apply W|apply W'] end.
  clear W W' H2 H3 H4 K2 K3 K4. destruct l, l'. unfold TSL_setTS. cbn in *. subst. reflexivity.
Qed.
Lemma TSL_lay_bytes l : TSL_wf l -> bytes_ok (tsl_lay l).
Proof.
  intros [_ Hb [_ H2] [_ H3] Ho [_ Hf]]. rewrite Forall_forall in Hb. cbn in Hb. unfold tsl_lay. bok; try (apply Hb; auto 20; fail).
  - apply put16_ok; exact Ho.
  - clear -Hf. induction Hf as [|p ps [Hp Hq] Hl IH]; cbn [map concat]; [constructor|]. apply bytes_ok_app.
    split; [constructor; [exact Hp | constructor; [exact Hq | constructor]] | exact IH].
Qed.
Lemma TSL_roundtrip l0 l : TSL_wf l0 -> TSL_wf l -> exists b, TSL_ToSector l = Ok b /\ zlen b = 256 /\ bytes_ok b /\
  TSL_FromSector l0 b = Ok (TSL_setTS (tsl_Track l0) (tsl_Sector l0) l) /\
  znth 0 b 1 = tsl_NextTrack l /\ znth 0 b 2 = tsl_NextSector l /\ word b 5 = tsl_SectorOffset l /\ pairs b = tsl_TrackSectors l.
Proof.
  intros W0 W. pose proof (TSL_wf_lens l W) as Ln. destruct (TSL_To_lay l Ln) as [E L]. exists (tsl_lay l).
  split; [exact E|]. split; [exact L|]. pose proof (TSL_lay_bytes l W) as B. split; [exact B|].
  rewrite TSL_From by exact L. destruct (TSL_of_lay l0 _ L B) as [K W']. destruct (tw_ts l0 W0) as [T0 S0]. specialize (W' T0 S0).
  assert (tsl_of l0 (tsl_lay l) = TSL_setTS (tsl_Track l0) (tsl_Sector l0) l) as Ec.
  { pose proof (TSL_lay_inj _ _ W' W K) as Ei. cbn [tsl_of tsl_Track tsl_Sector] in Ei. exact Ei. }
  split; [f_equal; exact Ec|].
  assert (forall (A : Type) (f : TrackSectorList -> A), (forall t s, f (TSL_setTS t s l) = f l) -> f (tsl_of l0 (tsl_lay l)) = f l) as Hp
    by (intros A f Hf; rewrite Ec; apply Hf).
  split; [exact (Hp _ tsl_NextTrack (fun _ _ => eq_refl))|]. split; [exact (Hp _ tsl_NextSector (fun _ _ => eq_refl))|].
  split; [exact (Hp _ tsl_SectorOffset (fun _ _ => eq_refl))|]. rewrite <- (TSL_pairs l0). exact (Hp _ tsl_TrackSectors (fun _ _ => eq_refl)).
Qed.
