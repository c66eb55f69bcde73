(** Dos3StmtProofs.v -- the lemmas behind the theorems of PropertiesDos3.v, and example disks. *)
From Verif Require Import GoBase GoLemmas DiskModel DiskSpec DiskProofs TypesModel Dos3Model CodecLemmas Dos3Spec Dos3CodecProofs Dos3Proofs.
From Coq Require Import ZifyBool ZifyNat.
Ltac Zify.zify_post_hook ::= Z.div_mod_to_equations.
Local Opaque zrange zeros sub.

(** ** Codecs *)
Lemma C11_lemma : forall v0 v b, VTOC_wf v0 ->
  (zlen b <> 256 -> exists e, VTOC_FromSector v0 b = Err e) /\
  (zlen b = 256 -> bytes_ok b -> exists v', VTOC_FromSector v0 b = Ok v' /\ VTOC_wf v' /\ VTOC_layout b v' /\
     v_Track v' = v_Track v0 /\ v_Sector v' = v_Sector v0 /\ VTOC_ToSector v' = Ok b) /\
  (VTOC_wf v -> exists b', VTOC_ToSector v = Ok b' /\ zlen b' = 256 /\ bytes_ok b' /\ VTOC_layout b' v /\
     VTOC_FromSector v0 b' = Ok (VTOC_setTS (v_Track v0) (v_Sector v0) v)).
Proof.
  intros v0 v b W0. split; [|split].
  - intros H. unfold VTOC_FromSector. replace (zlen b =? 256) with false by lia. cbn. eauto.
  - intros L B. destruct (VTOC_From_lay b v0 L B) as (v' & E & Lay & T & S & W). destruct (vw_ts v0 W0) as [T0 S0]. specialize (W T0 S0).
    exists v'. repeat (split; [assumption|]). split; [rewrite <- Lay; apply VTOC_layout_ok; exact W|]. split; [exact T|]. split; [exact S|].
    rewrite <- Lay. apply VTOC_To_lay, VTOC_wf_lens, W.
  - intros W. destruct (VTOC_roundtrip v0 v W0 W) as (b' & E1 & E2 & E3 & E4). exists b'. repeat (split; [assumption|]). split; [|exact E4].
    destruct (VTOC_To_lay v (VTOC_wf_lens v W)) as [E _]. rewrite E in E1. inversion E1; subst. apply VTOC_layout_ok. exact W.
Qed.
Lemma C12_fd_lemma : forall fd b,
  (zlen b <> 35 -> FileDesc_FromBytes b = Panic) /\
  (zlen b = 35 -> bytes_ok b -> exists fd', FileDesc_FromBytes b = Ok fd' /\ FD_wf fd' /\ FD_layout b fd' /\ FileDesc_ToBytes fd' = Ok b) /\
  (FD_wf fd -> exists b', FileDesc_ToBytes fd = Ok b' /\ zlen b' = 35 /\ bytes_ok b' /\ FD_layout b' fd /\ FileDesc_FromBytes b' = Ok fd).
Proof.
  intros fd b. split; [|split].
  - intros H. unfold FileDesc_FromBytes. replace (zlen b =? 35) with false by lia. reflexivity.
  - intros L B. exists (fd_of b). destruct (FD_of_lay b L B) as [K W]. split; [apply FD_From; exact L|]. split; [exact W|].
    split; [apply fd_of_layout; exact L|]. rewrite <- K at 2. apply FD_To_lay. apply W.
  - intros W. destruct (FD_roundtrip fd W) as (b' & E1 & E2 & E3 & E4 & E5). exists b'. auto 8.
Qed.
Lemma C12_cs_lemma : forall cs0 cs b, CS_wf cs0 ->
  (zlen b <> 256 -> exists e, CatalogSector_FromSector cs0 b = Err e) /\
  (zlen b = 256 -> bytes_ok b -> exists cs', CatalogSector_FromSector cs0 b = Ok cs' /\ CS_wf cs' /\
     cs_Track cs' = cs_Track cs0 /\ cs_Sector cs' = cs_Sector cs0 /\
     cs_NextTrack cs' = znth 0 b 1 /\ cs_NextSector cs' = znth 0 b 2 /\
     Forall2 FD_layout (slots b) (cs_FileDescs cs') /\ CatalogSector_ToSector cs' = Ok b) /\
  (CS_wf cs -> exists b', CatalogSector_ToSector cs = Ok b' /\ zlen b' = 256 /\ bytes_ok b' /\
     CatalogSector_FromSector cs0 b' = Ok (CS_setTS (cs_Track cs0) (cs_Sector cs0) cs)).
Proof.
  intros cs0 cs b W0. split; [|split].
  - intros H. unfold CatalogSector_FromSector. replace (zlen b =? 256) with false by lia. cbn [negb]. eauto.
  - intros L B. exists (cs_of cs0 b). destruct (CS_of_lay cs0 b L B) as [K W]. destruct (cw_ts cs0 W0) as [T0 S0]. specialize (W T0 S0).
    split; [apply CS_From; exact L|]. split; [exact W|]. do 4 (split; [reflexivity|]). split.
    + change (cs_FileDescs (cs_of cs0 b)) with (map (fun i => fd_of (slot b i)) (zrange 7)).
      rewrite slots_range. clear -L. assert (Forall (fun i => 0 <= i < 7) (zrange 7)) as H by (apply Forall_forall; intros i; apply In_zrange).
      induction H as [|i l Hi Hl IH]; cbn [map]; constructor; [|exact IH]. apply fd_of_layout. unfold slot. rewrite zlen_sub by lia. lia.
    + rewrite <- K at 2. apply CS_To_lay, CS_wf_lens, W.
  - intros W. destruct (CS_roundtrip cs0 cs W0 W) as (b' & E1 & E2 & E3 & E4 & _). exists b'. auto 8.
Qed.
Lemma C13_lemma : forall l0 l b, TSL_wf l0 ->
  (zlen b <> 256 -> exists e, TSL_FromSector l0 b = Err e) /\
  (zlen b = 256 -> bytes_ok b -> exists l', TSL_FromSector l0 b = Ok l' /\ TSL_wf l' /\
     tsl_Track l' = tsl_Track l0 /\ tsl_Sector l' = tsl_Sector l0 /\
     tsl_NextTrack l' = znth 0 b 1 /\ tsl_NextSector l' = znth 0 b 2 /\ tsl_SectorOffset l' = word b 5 /\
     tsl_TrackSectors l' = pairs b /\ TSL_ToSector l' = Ok b) /\
  (TSL_wf l -> exists b', TSL_ToSector l = Ok b' /\ zlen b' = 256 /\ bytes_ok b' /\
     TSL_FromSector l0 b' = Ok (TSL_setTS (tsl_Track l0) (tsl_Sector l0) l)).
Proof.
  intros l0 l b W0. split; [|split].
  - intros H. unfold TSL_FromSector. replace (zlen b =? 256) with false by lia. cbn [negb]. eauto.
  - intros L B. exists (tsl_of l0 b). destruct (TSL_of_lay l0 b L B) as [K W]. destruct (tw_ts l0 W0) as [T0 S0]. specialize (W T0 S0).
    split; [apply TSL_From; exact L|]. split; [exact W|]. do 5 (split; [reflexivity|]). split; [apply TSL_pairs|].
    rewrite <- K at 2. apply TSL_To_lay, TSL_wf_lens, W.
  - intros W. destruct (TSL_roundtrip l0 l W0 W) as (b' & E1 & E2 & E3 & E4 & _). exists b'. auto 8.
Qed.

(** ** Catalog *)
Lemma Forall2_map_r {A B} (R : A -> B -> Prop) (f : A -> B) l : Forall (fun x => R x (f x)) l -> Forall2 R l (map f l).
Proof. induction 1; cbn; constructor; assumption. Qed.
Lemma catalog_entries d l : bytes_ok d -> catalog d l -> Forall (fun e => zlen e = 35 /\ bytes_ok e) (entries d l).
Proof. intros Hd C. exact (entries_bytes d l Hd (catalog_places d l Hd C)). Qed.
Lemma Forall_filter {A} (P : A -> Prop) f l : Forall P l -> Forall (fun x => P x /\ f x = true) (filter f l).
Proof. intros H. rewrite Forall_forall in *. intros x Hx. apply filter_In in Hx. destruct Hx. auto. Qed.
Lemma C16_lemma : forall d l, bytes_ok d -> catalog d l ->
  returns (fun k => ReadCatalog k d) (fun r => exists files deleted, r = Ok (files, deleted) /\
    Forall2 (fun e fd => FD_layout e fd /\ FD_wf fd) (filter is_live (entries d l)) files /\
    Forall2 (fun e fd => FD_layout e fd /\ FD_wf fd) (filter is_deleted (entries d l)) deleted) /\
  returns (fun k => Catalog k d) (fun r => exists descs, r = Ok descs /\
    Forall2 (fun e ds => exists n, describes e n (-1) ds) (filter is_live (entries d l)) descs).
Proof.
  intros d l Hd C. pose proof (catalog_entries d l Hd C) as FE. split.
  - exists (S (length l)). eexists. split; [|intros k Hk; apply (ReadCatalog_chain d l k Hd C); lia].
    eexists _, _. split; [reflexivity|]. split; apply Forall2_map_r; (eapply Forall_impl; [|apply Forall_filter; exact FE]);
      intros e [[L B] _]; (split; [apply fd_of_layout; exact L | apply FD_of_lay; assumption]).
  - exists (S (length l)). eexists. split.
    2: { intros k Hk. unfold Catalog. rewrite (ReadCatalog_chain d l k Hd C) by lia. reflexivity. }
    eexists. split; [reflexivity|]. rewrite map_map. apply Forall2_map_r. eapply Forall_impl; [|apply Forall_filter; exact FE].
    intros e [[L B] Hl]. exists (FilenameString (fd_of e)). apply live_desc; assumption.
Qed.
Lemma ReadCatalog_of_err d k e : readCatalogSectors k d = Some (Err e) -> ReadCatalog k d = Some (Err e).
Proof. intros E. unfold ReadCatalog. rewrite E. reflexivity. Qed.
Lemma Z_le_le_dec a b c : {a <= b < c} + {~ a <= b < c}.
Proof. destruct (Z_le_dec a b); [destruct (Z_lt_dec b c); [left; lia | right; lia] | right; lia]. Qed.
Lemma good_vtoc_dec d : bytes_ok d -> {in_image d 17 0 /\ good_vtoc (vtoc d)} + {~ (in_image d 17 0 /\ good_vtoc (vtoc d))}.
Proof.
  intros Hd. destruct (in_image_dec d 17 0) as [Hi|Hi]; [|right; tauto]. destruct (vtoc_valid d Hd Hi) as (_ & _ & V).
  destruct (Validate (vtoc_of d)) as [[]| |] eqn:E; [left; split; [exact Hi | apply V; reflexivity]| |]; right; intros [_ G]; apply V in G; congruence.
Qed.
(** All images fall into three classes. *)
Lemma rcs_classes d : bytes_ok d ->
  (exists l, catalog d l /\ (length l <= 560)%nat) \/
  ((forall l, ~ catalog d l) /\ forall k, (561 <= k)%nat -> exists e, readCatalogSectors k d = Some (Err e)) \/
  (in_image d 17 0 /\ good_vtoc (vtoc d) /\ cyclic (catalog_place d) d (catalog_start d)).
Proof.
  intros Hd. destruct (good_vtoc_dec d Hd) as [[Hi G]|N].
  - destruct (readCatalog_classes d Hd Hi G) as [(l & C & L)|[(l & q & P & Q1 & Q2 & L)|C]].
    + left. exists l. split; [split; auto | exact L].
    + right. left. split.
      * intros l' (_ & _ & C'). clear -P Q1 Q2 C'. revert l' C'. induction P as [q|t s l q Hn Hg Hp IH]; intros l' C; inversion C; subst; try congruence;
          [apply Q2; assumption | eapply IH; eassumption].
      * intros k Hk. eapply rcs_bad; eauto. lia.
    + right. right. auto.
  - right. left. split; [intros l (Hi & G & _); tauto|]. intros k _. apply rcs_invalid; assumption.
Qed.
Lemma err_stable d k e : bytes_ok d -> (forall j, (561 <= j)%nat -> exists e, readCatalogSectors j d = Some (Err e)) ->
  readCatalogSectors 561 d = Some (Err e) -> (561 <= k)%nat -> readCatalogSectors k d = Some (Err e).
Proof.
  intros Hd H E Hk. unfold readCatalogSectors in *.
  destruct (UnmarshalLogicalSector _ _ _ _ _) as [v| |]; [|exact E|exact E]. destruct (Validate v); [|exact E|exact E].
  clear H. revert E. generalize (v_CatalogTrack v) (v_CatalogSector v) (@nil (Z * Z)) (@nil CatalogSector).
  assert (forall n k, (n <= k)%nat -> forall t s sn cs r, readCatalog_loop n d v t s sn cs = Some r -> readCatalog_loop k d v t s sn cs = Some r) as M.
  { clear. induction n as [|n IH]; intros k Hk t s sn cs r E; [discriminate|]. destruct k as [|k]; [lia|]. cbn [readCatalog_loop] in *.
    destruct (_ || _); [|exact E]. destruct (seen_in _ _ _); [exact E|]. destruct (_ <=? _); [exact E|]. destruct (_ <=? _); [exact E|].
    destruct (UnmarshalLogicalSector _ _ _ _ _); [|exact E|exact E]. apply IH; [lia | exact E]. }
  intros t s sn cs E. eapply M; eassumption.
Qed.
Lemma C17_partial_lemma : forall d, bytes_ok d ->
  (diverges (fun k => ReadCatalog k d) <->
     in_image d 17 0 /\ good_vtoc (vtoc d) /\ cyclic (catalog_place d) d (catalog_start d)) /\
  (~ diverges (fun k => ReadCatalog k d) ->
     exists r, (forall k, (561 <= k)%nat -> ReadCatalog k d = Some r) /\ r <> Panic /\
       ((exists x, r = Ok x) <-> exists l, catalog d l)).
Proof.
  intros d Hd. destruct (rcs_classes d Hd) as [(l & C & L)|[(N & H)|(Hi & G & C)]].
  - split.
    + split; [intros D; specialize (D 561%nat); cbv beta in D; rewrite (ReadCatalog_chain d l 561 Hd C) in D by lia; discriminate|].
      intros (_ & _ & Cy). exfalso. eapply cyclic_no_chain; [exact Cy | apply C].
    + intros _. eexists. split; [intros k Hk; apply (ReadCatalog_chain d l k Hd C); lia|]. split; [discriminate|]. split; eauto.
  - destruct (H 561%nat ltac:(lia)) as [e E]. split.
    + split; [intros D; specialize (D 561%nat); cbv beta in D; rewrite (ReadCatalog_of_err _ _ _ E) in D; discriminate|].
      intros (Hi & G & Cy). rewrite (rcs_cyclic d 561 Hd Hi G Cy) in E. discriminate.
    + intros _. exists (Err e). split; [intros k Hk; apply ReadCatalog_of_err; eapply err_stable; eassumption|].
      split; [discriminate|]. split; [intros [x Hx]; discriminate | intros [l C]; destruct (N l C)].
  - assert (diverges (fun k => ReadCatalog k d)) as D by (intros k; unfold ReadCatalog; rewrite (rcs_cyclic d k Hd Hi G C); reflexivity).
    split; [split; [intros _; auto | intros _; exact D] | intros K; destruct (K D)].
Qed.

(** ** Contents *)
Lemma C18_lemma : forall d fd, bytes_ok d -> FD_wf fd ->
  returns (fun k => Contents k fd d) (fun r => r <> Panic /\
    (forall data cap, r = Ok (data, cap) <-> exists l, body d (fd_Track fd, fd_Sector fd) l data /\ cap = 31232 * zlen l) /\
    (cyclic (in_image d) d (fd_Track fd, fd_Sector fd) -> exists e, r = Err e)).
Proof.
  intros d fd Hd W. pose proof (fw_b fd W) as B. rewrite Forall_forall in B. cbn [In] in B.
  assert (is_byte (fd_Track fd)) as B1 by (apply B; auto). assert (is_byte (fd_Sector fd)) as B2 by (apply B; auto).
  destruct (body_dec d (fd_Track fd, fd_Sector fd) Hd (conj B1 B2)) as [(l & data & Hb & L)|N].
  - exists (S list_limit). eexists. split; [|intros k Hk; apply (Contents_body d fd l data k Hd B1 B2 Hb); lia].
    split; [discriminate|]. split.
    + intros data' cap. split.
      * intros E. inversion E; subst. eauto.
      * intros (l' & Hb' & ->). destruct (body_unique _ _ _ _ _ _ Hb Hb') as [-> ->]. reflexivity.
    + intros C. exfalso. eapply cyclic_no_chain; [exact C | apply Hb].
  - destruct (Contents_no_body d fd (S list_limit) Hd B1 B2 N ltac:(lia)) as [e E].
    exists (S list_limit), (Err e). split.
    + split; [discriminate|]. split; [|eauto]. intros data cap. split; [discriminate|]. intros (l & Hb & _). destruct (N _ _ Hb).
    + intros k Hk. clear N. unfold Contents in *.
      assert (forall n k, (n <= k)%nat -> forall t s sn cs r, readTSLs n d t s sn cs = Some r -> readTSLs k d t s sn cs = Some r) as M.
      { clear. induction n as [|n IH]; intros k Hk t s sn cs r E; [discriminate|]. destruct k as [|k]; [lia|]. cbn [readTSLs] in *.
        destruct (_ || _); [|exact E]. destruct (seen_in _ _ _); [exact E|].
        destruct (UnmarshalLogicalSector _ _ _ _ _); [|exact E|exact E]. apply IH; [lia | exact E]. }
      destruct (readTSLs (S list_limit) d (fd_Track fd) (fd_Sector fd) [] []) as [r|] eqn:E'; [|discriminate]. rewrite (M _ _ Hk _ _ _ _ _ E'). exact E.
Qed.

(** ** GetFile *)
Lemma C19_lemma : forall d l n e, bytes_ok d -> catalog d l -> lookup (entries d l) n e ->
  (forall ls data start out, body d (znth 0 e 0, znth 0 e 1) ls data -> decoded (znth 0 e 2 mod 128) (zlen ls) data start out ->
     returns (fun k => GetFile k d n) (fun r => exists ds, r = Ok (FI ds out start) /\ describes e n (zlen out) ds)) /\
  (~ In (znth 0 e 2 mod 128) [0; 1; 2; 4] \/ (forall ls data, ~ body d (znth 0 e 0, znth 0 e 1) ls data) ->
     exists n0, forall k, (n0 <= k)%nat -> exists er, GetFile k d n = Some (Err er)).
Proof.
  intros d l n e Hd C Hl. pose proof (catalog_entries d l Hd C) as FE. rewrite Forall_forall in FE.
  destruct (FE e (lookup_In _ _ _ Hl)) as [L B]. pose proof Hl as (a & b & _ & Live & Hn & _). split.
  - intros ls data start out Hb Hdec. destruct (result_decoded d e n ls data start out Hd L B Live Hn Hb Hdec) as (ds & E & D).
    exists (S (length l + length ls)), (Ok (FI ds out start)). split; [eauto|]. intros k Hk.
    rewrite (GetFile_found d l n e ls data k Hd C Hl Hb) by lia. rewrite E. reflexivity.
  - intros H. destruct (body_dec d (znth 0 e 0, znth 0 e 1) Hd) as [(ls & data & Hb & L')|N]; [split; apply bytes_ok_znth; exact B | |].
    + destruct H as [H|H]; [|destruct (H _ _ Hb)]. exists (S (length l + length ls)). intros k Hk.
      rewrite (GetFile_found d l n e ls data k Hd C Hl Hb) by lia. destruct (result_other e n (zlen ls) data H) as [er ->]. eauto.
    + exists (S (length l + list_limit)). intros k Hk. apply (GetFile_no_body d l n e k Hd C Hl N); lia.
Qed.
Lemma C19_missing_lemma : forall d l n, bytes_ok d -> catalog d l ->
  (forall e, In e (entries d l) -> is_live e = true -> ~ entry_name e n) ->
  exists n0, forall k, (n0 <= k)%nat -> exists er, GetFile k d n = Some (Err er).
Proof.
  intros d l n Hd C H. exists (S (length l)). intros k Hk. apply (GetFile_missing d l n k Hd C); [|lia].
  intros e Hl. pose proof Hl as (a & b & _ & Live & Hn & _). apply (H e); [eapply lookup_In; exact Hl | exact Live | exact Hn].
Qed.
Lemma C20_partial_lemma : forall d n, bytes_ok d ->
  (exists k, GetFile k d n = Some Panic) <->
  exists l e ls data, catalog d l /\ lookup (entries d l) n e /\ body d (znth 0 e 0, znth 0 e 1) ls data /\
    fatal (znth 0 e 2 mod 128) (zlen ls) data.
Proof.
  intros d n Hd. split.
  - intros [k Hp].
    assert (forall k', (k <= k')%nat -> GetFile k' d n = Some Panic) as M.
    { intros k' Hk. unfold GetFile, fileForFilename, ReadCatalog, readCatalogSectors, Contents in *.
      assert (forall v n k, (n <= k)%nat -> forall t s sn cs r, readCatalog_loop n d v t s sn cs = Some r -> readCatalog_loop k d v t s sn cs = Some r) as M1.
      { clear. intros v. induction n as [|n IH]; intros k Hk t s sn cs r E; [discriminate|]. destruct k as [|k]; [lia|]. cbn [readCatalog_loop] in *.
        destruct (_ || _); [|exact E]. destruct (seen_in _ _ _); [exact E|]. destruct (_ <=? _); [exact E|]. destruct (_ <=? _); [exact E|].
        destruct (UnmarshalLogicalSector _ _ _ _ _); [|exact E|exact E]. apply IH; [lia | exact E]. }
      assert (forall n k, (n <= k)%nat -> forall t s sn cs r, readTSLs n d t s sn cs = Some r -> readTSLs k d t s sn cs = Some r) as M2.
      { clear. induction n as [|n IH]; intros k Hk t s sn cs r E; [discriminate|]. destruct k as [|k]; [lia|]. cbn [readTSLs] in *.
        destruct (_ || _); [|exact E]. destruct (seen_in _ _ _); [exact E|].
        destruct (UnmarshalLogicalSector _ _ _ _ _); [|exact E|exact E]. apply IH; [lia | exact E]. }
      destruct (UnmarshalLogicalSector _ _ _ _ _) as [v| |]; [|exact Hp|exact Hp]. destruct (Validate v); [|exact Hp|exact Hp].
      destruct (readCatalog_loop k d v _ _ [] []) as [r|] eqn:E1; [|discriminate]. rewrite (M1 _ _ _ Hk _ _ _ _ _ E1).
      destruct r as [css| |]; [|exact Hp|exact Hp]. destruct (splitDescs _) as [fds dels]. destruct (find _ fds) as [fd|]; [|exact Hp].
      destruct (readTSLs k d _ _ [] []) as [r|] eqn:E2; [|discriminate]. rewrite (M2 _ _ Hk _ _ _ _ _ E2). exact Hp. }
    set (K := (S (k + 561 + list_limit))%nat). specialize (M K ltac:(lia)).
    destruct (rcs_classes d Hd) as [(l & C & L)|[(N & H)|(Hi & G & C)]].
    + exists l. pose proof (catalog_entries d l Hd C) as FE. destruct (find_lookup_dec _ n FE) as [(e & Hl)|Hm].
      2: { destruct (GetFile_missing d l n K Hd C Hm ltac:(lia)) as [er E]. congruence. }
      exists e. rewrite Forall_forall in FE. destruct (FE e (lookup_In _ _ _ Hl)) as [Le B]. pose proof Hl as (a & b & _ & Live & Hn & _).
      destruct (body_dec d (znth 0 e 0, znth 0 e 1) Hd) as [(ls & data & Hb & L')|Nb]; [split; apply bytes_ok_znth; exact B | |].
      2: { destruct (GetFile_no_body d l n e K Hd C Hl Nb ltac:(lia) ltac:(lia)) as [er E]. congruence. }
      exists ls, data. repeat (split; [assumption|]).
      rewrite (GetFile_found d l n e ls data K Hd C Hl Hb) in M by lia. destruct (kinds e data (zlen ls)) as [(st & out & D)|[F|O]].
      * destruct (result_decoded d e n ls data st out Hd Le B Live Hn Hb D) as (ds & E & _). congruence.
      * exact F.
      * destruct (result_other e n (zlen ls) data O) as [er E]. congruence.
    + exfalso. destruct (H K ltac:(lia)) as [er E]. unfold GetFile, fileForFilename, ReadCatalog in M. rewrite E in M. discriminate.
    + exfalso. unfold GetFile, fileForFilename, ReadCatalog in M. rewrite (rcs_cyclic d K Hd Hi G C) in M. discriminate.
  - intros (l & e & ls & data & C & Hl & Hb & F). exists (S (length l + length ls)).
    rewrite (GetFile_found d l n e ls data _ Hd C Hl Hb) by lia. pose proof Hl as (a & b & _ & Live & _). rewrite (result_fatal d e n ls data Hd Live Hb F). reflexivity.
Qed.

(** ** Names, validation *)
Lemma C21_lemma : forall fd, FD_wf fd ->
  trimmed (clear_high (if fd_Track fd =? 255 then sub (fd_Filename fd) 0 29 else fd_Filename fd)) (FilenameString fd) /\
  d_name (fd_descriptor fd) = FilenameString fd /\ d_fullname (fd_descriptor fd) = [] /\
  d_sectors (fd_descriptor fd) = fd_SectorCount fd /\ d_length (fd_descriptor fd) = -1 /\
  (d_locked (fd_descriptor fd) = true <-> 128 <= fd_Filetype fd) /\
  dos_type (fd_Filetype fd mod 128) (d_type (fd_descriptor fd)).
Proof.
  intros fd [B [L _] _]. rewrite Forall_forall in B. cbn [In] in B. assert (is_byte (fd_Filetype fd)) as B2 by (apply B; auto).
  split.
  { unfold FilenameString, Status. destruct (Z.eqb_spec (fd_Track fd) 0) as [->|H0]; cbn [Z.eqb].
    - rewrite clear_high_u8. apply Trim_trimmed.
    - destruct (fd_Track fd =? 255); rewrite clear_high_u8; [|apply Trim_trimmed]. rewrite L. apply Trim_trimmed. }
  do 4 (split; [reflexivity|]). split.
  - unfold fd_descriptor, FtLocked. cbn [d_locked]. rewrite (high1 _ B2). lia.
  - unfold fd_descriptor. cbn [d_type]. rewrite (low7 _ B2). unfold dos_type. set (y := fd_Filetype fd mod 128). cbn [In].
    unfold FtText, FtInteger, FtApplesoft, FtBinary, FtS, FtRelocatable, FtA, FtB.
    unfold FiletypeASCIIText, FiletypeIntegerBASIC, FiletypeApplesoftBASIC, FiletypeBinary, FiletypeS, FiletypeRelocatable, FiletypeNewA, FiletypeNewB.
    assert (0 <= y < 128) by (subst y; apply Z.mod_pos_bound; lia). clearbody y.
    destruct (Z.eqb_spec y 0); [lia|]. destruct (Z.eqb_spec y 1); [lia|]. destruct (Z.eqb_spec y 2); [lia|]. destruct (Z.eqb_spec y 4); [lia|].
    destruct (Z.eqb_spec y 8); [lia|]. destruct (Z.eqb_spec y 16); [lia|]. destruct (Z.eqb_spec y 32); [lia|]. destruct (Z.eqb_spec y 64); lia.
Qed.
Lemma land_bit x k : is_byte x -> 0 <= k < 8 -> (0 <? Z.land x (u8 (Z.shiftl 1 k))) = Z.testbit x k.
Proof.
  intros Hx Hk. 
  assert (forallb (fun x => forallb (fun k => Bool.eqb (0 <? Z.land x (u8 (Z.shiftl 1 k))) (Z.testbit x k)) (zrange 8)) (zrange 256) = true) as H
    by (vm_compute; reflexivity).
  pose proof (byte_all _ H x Hx) as H1. cbv beta in H1. rewrite forallb_forall in H1. apply eqb_prop, H1, In_zrange. exact Hk.
Qed.
Lemma IsFree_bit t s : bytes_ok t -> 0 <= s -> IsFree t s = (s <? 16) && Z.testbit (256 * znth 0 t 0 + znth 0 t 1) s.
Proof.
  intros Ht Hs. pose proof (bytes_ok_znth t 0 Ht) as B0. pose proof (bytes_ok_znth t 1 Ht) as B1. unfold IsFree.
  set (a := znth 0 t 0) in *. set (b := znth 0 t 1) in *. destruct (Z.leb_spec 16 s); [replace (s <? 16) with false by lia; reflexivity|].
  replace (s <? 16) with true by lia. cbn [andb]. unfold is_byte in *.
  destruct (Z.ltb_spec s 8).
  - rewrite Z.mod_small by lia. rewrite land_bit by (unfold is_byte; lia). apply Bool.eq_iff_eq_true. rewrite !Z.testbit_true by lia.
    assert (s = 0 \/ s = 1 \/ s = 2 \/ s = 3 \/ s = 4 \/ s = 5 \/ s = 6 \/ s = 7) as [E|[E|[E|[E|[E|[E|[E|E]]]]]]] by lia; subst s;
      match goal with |- context [2 ^ ?k] => let c := eval compute in (2 ^ k) in change (2 ^ k) with c end; lia.
  - replace (s mod 8) with (s - 8) by lia. rewrite land_bit by (unfold is_byte; lia). apply Bool.eq_iff_eq_true. rewrite !Z.testbit_true by lia.
    replace ((256 * a + b) / 2 ^ s) with (a / 2 ^ (s - 8)); [reflexivity|].
    replace (2 ^ s) with (256 * 2 ^ (s - 8)) by (replace s with (8 + (s - 8)) at 2 by lia; rewrite Z.pow_add_r by lia; reflexivity).
    rewrite <- Z.div_div by (try lia; apply Z.pow_pos_nonneg; lia). f_equal. lia.
Qed.
Lemma default_free t : 0 <= t < 50 -> znth [] (v_FreeSectors DefaultVTOC) t = if t <? 35 then [0xff; 0xff; 0; 0] else zeros 4.
Proof. intros Ht. unfold DefaultVTOC. cbn [v_FreeSectors]. rewrite (znth_map _ 0) by (rewrite zlen_zrange by lia; lia). rewrite znth_zrange by lia. reflexivity. Qed.
Lemma C22_lemma :
  (forall v, (Validate v = Ok tt <->
     (v_Volume v <> 255 /\ v_DOSRelease v = 3 /\ (v_TrackDirection v = 1 \/ v_TrackDirection v = -1) /\ v_NumTracks v = 35 /\
      (v_NumSectors v = 13 \/ v_NumSectors v = 16) /\ v_BytesPerSector v = 256 /\ v_TSLMaxSize v = 122 /\
      Forall (fun m => znth 0 m 2 = 0 /\ znth 0 m 3 = 0) (v_FreeSectors v))) /\
   (Validate v = Ok tt \/ exists e, Validate v = Err e)) /\
  (forall m s, bytes_ok m -> 0 <= s -> (IsFree m s = true <-> s < 16 /\ Z.testbit (256 * znth 0 m 0 + znth 0 m 1) s = true)) /\
  (Validate DefaultVTOC = Ok tt /\ VTOC_wf DefaultVTOC /\
   forall t s, 0 <= t < 50 -> 0 <= s -> (IsFree (znth [] (v_FreeSectors DefaultVTOC) t) s = true <-> t < 35 /\ s < 16)).
Proof.
  split; [intros v; split; [apply Validate_iff | apply Validate_total]|]. split.
  { intros m s Hm Hs. rewrite IsFree_bit by assumption. split; [intros H; apply andb_prop in H; split; [lia | apply H] | intros [H1 H2]; rewrite H2; lia]. }
  split; [vm_compute; reflexivity|]. split.
  - split; cbn [DefaultVTOC v_Track v_Sector v_Unused1 v_CatalogTrack v_CatalogSector v_DOSRelease v_Volume v_TSLMaxSize v_LastTrack v_NumTracks v_NumSectors
      v_Unused2 v_Unused3 v_Unused4 v_Unused5 v_TrackDirection v_BytesPerSector v_FreeSectors]; unfold is_byte, is_u16; try lia.
    + repeat constructor; lia.
    + split; [apply zlen_zeros; lia | apply bytes_ok_zeros].
    + split; [apply zlen_zeros; lia | apply bytes_ok_zeros].
    + split; [apply zlen_zeros; lia | apply bytes_ok_zeros].
    + split; [apply zlen_zeros; lia | apply bytes_ok_zeros].
    + split; [rewrite zlen_map, zlen_zrange by lia; reflexivity|]. apply Forall_map, Forall_forall. intros i _.
      destruct (i <? 35); [split; [reflexivity | repeat constructor; unfold is_byte; lia] | split; [apply zlen_zeros; lia | apply bytes_ok_zeros]].
  - intros t s Ht Hs. rewrite default_free by exact Ht. destruct (Z.ltb_spec t 35) as [Hlt|Hge].
    + rewrite IsFree_bit; [|repeat constructor; unfold is_byte; lia | exact Hs]. destruct (Z.ltb_spec s 16); [|split; [discriminate | lia]].
      split; [intros _; lia|]. intros _. cbn [andb]. change (256 * znth 0 [255; 255; 0; 0] 0 + znth 0 [255; 255; 0; 0] 1) with (Z.ones 16).
      apply Z.ones_spec_low. lia.
    + rewrite IsFree_bit by (try apply bytes_ok_zeros; exact Hs). rewrite !znth_zeros by lia. rewrite Z.testbit_0_l, andb_false_r. split; [discriminate | lia].
Qed.

(** ** Example disks *)
Definition ex_name (n : bytes) : bytes := let hi := map (fun c => c + 128) n in hi ++ repeat 0xA0 (30 - length n).
Definition ex_entry (t s ty : Z) (n : bytes) (count : Z) : bytes := [t; s; ty] ++ ex_name n ++ put16 count.
Definition put (d : bytes) (t s : Z) (b : bytes) : bytes := upd d (offset t s) b.
Definition ex_vtoc_bytes (ct cs : Z) : bytes :=
  [0; ct; cs; 3; 0; 0; 254] ++ repeat 0 32 ++ [122] ++ repeat 0 8 ++ [18; 1; 0; 0; 35; 16; 0; 1].
(** Catalog 17/15 -> 17/14; HELLO (Applesoft, locked), a deleted entry, DATA (binary), NOTES
    (text); ZEROS (text whose body is all zeros), LONG (binary with too large a length), MEMO. *)
Definition ex_dos_disk : bytes :=
  let d := zeros 143360 in
  let d := put d 17 0 (ex_vtoc_bytes 17 15) in
  let d := put d 17 15 ([0; 17; 14] ++ repeat 0 8 ++ ex_entry 18 15 0x82 (s2b "HELLO") 2 ++ ex_entry 255 15 4 (s2b "GONE") 2 ++ ex_entry 18 13 4 (s2b "DATA") 2) in
  let d := put d 17 14 ([0; 0; 0] ++ repeat 0 8 ++ ex_entry 18 11 0 (s2b "NOTES") 3 ++ ex_entry 18 8 0 (s2b "ZEROS") 3 ++ ex_entry 18 7 4 (s2b "LONG") 3 ++ ex_entry 18 5 0 (s2b "MEMO") 2) in
  let d := put d 18 15 (repeat 0 12 ++ [18; 14]) in
  let d := put d 18 14 [5; 0; 1; 2; 3; 4; 5] in
  let d := put d 18 13 (repeat 0 12 ++ [18; 12]) in
  let d := put d 18 12 [0x00; 0x20; 3; 0; 0xA9; 0x01; 0x60] in
  let d := put d 18 11 ([0; 18; 9] ++ repeat 0 9 ++ [18; 10]) in
  let d := put d 18 10 [0xC1; 0xC2] in
  let d := put d 18 9 (repeat 0 12 ++ [0; 0; 18; 10]) in
  let d := put d 18 8 (repeat 0 12 ++ [0; 5]) in
  let d := put d 18 7 (repeat 0 12 ++ [18; 6]) in
  let d := put d 18 5 (repeat 0 12 ++ [18; 10]) in
  put d 18 6 [0x00; 0x20; 0xff; 0xff].
(** A catalog sector that points to itself. *)
Definition ex_cyclic_disk : bytes := put (put (zeros 143360) 17 0 (ex_vtoc_bytes 17 15)) 17 15 [0; 17; 15].

Lemma bytes_ok_forallb b : forallb (fun x => (0 <=? x) && (x <? 256)) b = true -> bytes_ok b.
Proof. intros H. apply Forall_forall. intros x Hx. rewrite forallb_forall in H. specialize (H x Hx). unfold is_byte. lia. Qed.
Lemma ex_dos_disk_ok : bytes_ok ex_dos_disk.
Proof. apply bytes_ok_forallb. vm_compute. reflexivity. Qed.
Lemma ex_cyclic_disk_ok : bytes_ok ex_cyclic_disk.
Proof. apply bytes_ok_forallb. vm_compute. reflexivity. Qed.
Lemma good_vtoc_check d : bytes_ok d -> in_image d 17 0 -> Validate (vtoc_of d) = Ok tt -> good_vtoc (vtoc d).
Proof. intros Hd Hi V. apply (vtoc_valid d Hd Hi). exact V. Qed.
Lemma ex_catalog : catalog ex_dos_disk [(17, 15); (17, 14)].
Proof.
  assert (zlen ex_dos_disk = 143360) as L by (vm_compute; reflexivity).
  assert (in_image ex_dos_disk 17 0) as Hi by (unfold in_image; rewrite L; unfold offset; lia).
  assert (znth 0 (vtoc ex_dos_disk) 0x35 = 16) as S by (vm_compute; reflexivity).
  split; [exact Hi|]. split.
  - apply good_vtoc_check; [exact ex_dos_disk_ok | exact Hi | vm_compute; reflexivity].
  - assert (catalog_start ex_dos_disk = (17, 15)) as -> by (vm_compute; reflexivity).
    assert (link ex_dos_disk 17 15 = (17, 14)) as E1 by (vm_compute; reflexivity).
    assert (link ex_dos_disk 17 14 = (0, 0)) as E2 by (vm_compute; reflexivity).
    constructor; [discriminate | unfold catalog_place; rewrite S, L; unfold offset; lia|]. rewrite E1.
    constructor; [discriminate | unfold catalog_place; rewrite S, L; unfold offset; lia|]. rewrite E2. constructor.
Qed.
Lemma ex_cyclic : in_image ex_cyclic_disk 17 0 /\ good_vtoc (vtoc ex_cyclic_disk) /\ cyclic (catalog_place ex_cyclic_disk) ex_cyclic_disk (catalog_start ex_cyclic_disk).
Proof.
  assert (zlen ex_cyclic_disk = 143360) as L by (vm_compute; reflexivity).
  assert (in_image ex_cyclic_disk 17 0) as Hi by (unfold in_image; rewrite L; unfold offset; lia).
  assert (znth 0 (vtoc ex_cyclic_disk) 0x35 = 16) as S by (vm_compute; reflexivity).
  split; [exact Hi|]. split.
  - apply good_vtoc_check; [exact ex_cyclic_disk_ok | exact Hi | vm_compute; reflexivity].
  - assert (catalog_start ex_cyclic_disk = (17, 15)) as -> by (vm_compute; reflexivity).
    assert (link ex_cyclic_disk 17 15 = (17, 15)) as E1 by (vm_compute; reflexivity).
    exists [(17, 15)], (17, 15). split; [|left; reflexivity].
    constructor; [discriminate | unfold catalog_place; rewrite S, L; unfold offset; lia|]. rewrite E1. constructor.
Qed.
Lemma C17_refuted_lemma : exists d, bytes_ok d /\ zlen d = 143360 /\
  diverges (fun k => ReadCatalog k d) /\ diverges (fun k => dos3_SeemsToMatch k d).
Proof.
  exists ex_cyclic_disk. split; [exact ex_cyclic_disk_ok|]. split; [vm_compute; reflexivity|].
  assert (diverges (fun k => ReadCatalog k ex_cyclic_disk)) as D by (apply (C17_partial_lemma _ ex_cyclic_disk_ok); exact ex_cyclic).
  split; [exact D|]. intros k. unfold dos3_SeemsToMatch. specialize (D k). cbv beta in D. rewrite D. reflexivity.
Qed.
Lemma C20_refuted_lemma : exists d n1 n2, bytes_ok d /\ zlen d = 143360 /\ (exists l, catalog d l) /\
  GetFile 10 d n1 = Some Panic /\ GetFile 10 d n2 = Some Panic.
Proof.
  exists ex_dos_disk, (s2b "ZEROS"), (s2b "LONG"). split; [exact ex_dos_disk_ok|]. split; [vm_compute; reflexivity|].
  split; [exists [(17, 15); (17, 14)]; exact ex_catalog|]. split; vm_compute; reflexivity.
Qed.
