(** MarkProofs.v -- what happens to track 17 sector 0, the sector that DOS 3.3 disks are recognised
    by, when files are written and removed on a NakedOS disk. *)
From Coq Require Import ZifyBool ZifyNat.
From Verif Require Import GoBase GoLemmas DiskModel DiskSpec DiskProofs SupermonModel SupermonSpec SupermonTableSpec SupermonProofs SupermonSymProofs SupermonOpProofs.
From Verif Require Import CmdModel CmdSpec NakedCmdSpec.
Ltac Zify.zify_post_hook ::= Z.div_mod_to_equations.
Local Opaque zrange zeros sub.

Lemma WriteFile_loop_touch f need cts : legal f ->
  forall ks i (d sm d' sm' : bytes), (forall k, In k ks -> 0 <= k < 560) -> zlen d = 143360 -> zlen sm = 560 ->
  WriteFile_loop f need cts (map ts ks) i (d, sm) = ((d', sm'), Ok tt) ->
  zlen d' = 143360 /\ zlen sm' = 560 /\
  forall k, 0 <= k < 560 -> (znth 0 sm' k = f /\ znth 0 sm k = FREE) \/ (znth 0 sm' k = znth 0 sm k /\ sec d' k = sec d k).
Proof.
  intros Hf. unfold legal in Hf. induction ks as [|k ks IH]; intros i d sm d' sm' Hks Hd Hsm E.
  - cbn [map WriteFile_loop] in E. injection E as <- <-. split; [exact Hd|]. split; [exact Hsm|]. intros k _. right. split; reflexivity.
  - assert (0 <= k < 560) as Hk by (apply Hks; left; reflexivity).
    assert (forall k', In k' ks -> 0 <= k' < 560) as Hks' by (intros k' Hk'; apply Hks; right; exact Hk').
    cbn [map WriteFile_loop] in E. unfold ts in E at 1. rewrite FileForSector_ts in E by lia.
    unfold FileFree in E. destruct (znth 0 sm k =? 255) eqn:Efree; [|exact (IH i d sm d' sm' Hks' Hd Hsm E)].
    unfold slice in E. destruct ((0 <=? i * 256) && (i * 256 <=? (i + 1) * 256) && ((i + 1) * 256 <=? zlen cts)) eqn:Esl; [|discriminate E].
    assert (zlen (sub cts (i * 256) ((i + 1) * 256)) = 256) as Lc by (rewrite zlen_sub; lia).
    rewrite WriteSector_ts in E by lia.
    unfold SetFileForSector, FileIllegal, FileFree, FileReserved in E.
    replace (35 <=? k / 16) with false in E by lia. replace (16 <=? k mod 16) with false in E by lia.
    replace ((f =? 0) || (f =? 255) || (f =? 254)) with false in E by lia.
    replace (k / 16 * 16 + k mod 16) with k in E by lia. cbv zeta in E.
    remember (upd d (256 * k) (sub cts (i * 256) ((i + 1) * 256))) as d1 eqn:Ed1. remember (zset sm k f) as sm1 eqn:Esm1.
    assert (zlen d1 = 143360) as Ld1 by (rewrite Ed1, zlen_upd; lia).
    assert (zlen sm1 = 560) as Lsm1 by (rewrite Esm1, zlen_zset; lia).
    assert (forall k', 0 <= k' < 560 -> (znth 0 sm1 k' = f /\ znth 0 sm k' = FREE) \/ (znth 0 sm1 k' = znth 0 sm k' /\ sec d1 k' = sec d k')) as Hone.
    { intros k' Hk'. rewrite Esm1, znth_zset by lia. destruct (Z.eqb_spec k' k) as [->|Hne]; [left; split; [reflexivity|unfold FREE; lia]|right].
      split; [reflexivity|]. rewrite Ed1. apply sec_upd_other; lia. }
    destruct (i + 1 =? need).
    + injection E as <- <-. split; [exact Ld1|]. split; [exact Lsm1|exact Hone].
    + destruct (IH (i + 1) d1 sm1 d' sm' Hks' Ld1 Lsm1 E) as (L1 & L2 & Ho). split; [exact L1|]. split; [exact L2|].
      intros k' Hk'. unfold FREE in *. destruct (Ho k' Hk') as [[H1 H2]|[H1 H2]]; destruct (Hone k' Hk') as [[H3 H4]|[H3 H4]]; [lia|left; split; lia|left; split; lia|right; split; congruence].
Qed.

(** After WriteFile a sector belongs to the file written, or has the bytes it had, and then also the
    owner it had unless that was the file written. *)
Lemma WriteFile_touch f c ow (d sm d' sm' : bytes) ex : zlen d = 143360 -> zlen sm = 560 -> legal f ->
  WriteFile f c ow (d, sm) = ((d', sm'), Ok ex) ->
  zlen d' = 143360 /\ zlen sm' = 560 /\ forall k, 12 <= k < 560 -> (znth 0 sm' k = f /\ (znth 0 sm k = FREE \/ znth 0 sm k = f)) \/ (sec d' k = sec d k /\ (znth 0 sm k <> f -> znth 0 sm' k = znth 0 sm k)).
Proof.
  intros Hd Hl Hf E. unfold WriteFile in E. cbv zeta in E.
  destruct (_ <? _) in E; [discriminate E|]. destruct (_ && _) in E; [discriminate E|].
  remember (if 0 <? zlen (SectorsForFile sm f) then SMDelete sm f else sm) as sm1 eqn:E1.
  assert (zlen sm1 = 560) as Hl1 by (rewrite E1; destruct (0 <? _); rewrite ?zlen_SMDelete; exact Hl).
  assert (forall k, 12 <= k < 560 -> znth 0 sm k <> f -> znth 0 sm1 k = znth 0 sm k) as Hk1.
  { intros k Hk N. rewrite E1. destruct (0 <? _); [|reflexivity]. rewrite znth_SMDelete by lia. replace (znth 0 sm k =? f) with false by lia. reflexivity. }
  rewrite all_ts_eq in E. destruct (WriteFile_loop f _ _ _ 0 (d, sm1)) as [[d2 sm2] [[]|e|]] eqn:EL in E; [|discriminate E|discriminate E].
  destruct (WriteFile_loop_touch f _ _ Hf _ _ _ _ _ _ ltac:(intros k' Hk'; apply In_zrange; exact Hk') Hd Hl1 EL) as (L1 & L2 & Ho).
  rewrite Persist_ok in E by lia. injection E as <- <- _. split; [rewrite zlen_upd; lia|]. split; [exact L2|]. intros k Hk. specialize (Hk1 k Hk).
  destruct (Ho k ltac:(lia)) as [[H1 H2]|[H1 H2]]; [left; split; [exact H1|]; destruct (Z.eq_dec (znth 0 sm k) f) as [X|X]; [right; exact X|left; rewrite <- (Hk1 X); exact H2]|right]. split; [|intros N; rewrite H1; apply Hk1; exact N].
  rewrite <- H2. apply sec_upd_other; lia.
Qed.
Lemma sec_in_flat d ks k : 0 <= k -> 256 * k + 256 <= zlen d -> (forall j, In j ks -> 0 <= j /\ 256 * j + 256 <= zlen d) -> In k ks ->
  exists j, 0 <= j /\ forall i, 0 <= i < 256 -> znth 0 (sec d k) i = znth 0 (flat_map (sec d) ks) (256 * j + i).
Proof.
  intros Hk Hl. induction ks as [|x ks IH]; intros Hks Hin; [destruct Hin|].
  assert (zlen (sec d x) = 256) as Lx. { destruct (Hks x (or_introl eq_refl)) as [X1 X2]. unfold sec. rewrite zlen_sub; lia. }
  destruct Hin as [->|Hin].
  - exists 0. split; [lia|]. intros i Hi. cbn [flat_map]. rewrite znth_app by lia. replace (256 * 0 + i <? zlen (sec d k)) with true by lia.
    f_equal; lia.
  - destruct (IH (fun j Hj => Hks j (or_intror Hj)) Hin) as (j & Hj & H). exists (j + 1). split; [lia|]. intros i Hi. rewrite (H i Hi).
    cbn [flat_map]. rewrite znth_app by lia. replace (256 * (j + 1) + i <? zlen (sec d x)) with false by lia. f_equal. lia.
Qed.
Lemma release_sec d : release_byte d = znth 0 (sec d 272) 3.
Proof. reflexivity. Qed.
Lemma padded_byte c k : 0 <= k -> znth 0 (padded c) k = znth 0 c k.
Proof.
  intros Hk. unfold padded. rewrite znth_app by exact Hk. destruct (Z.ltb_spec k (zlen c)); [reflexivity|].
  rewrite (znth_overflow _ c) by lia. apply znth_zeros. lia.
Qed.

(** The mark after a file has been written: it is what it was, or a byte of the data. *)
Lemma WriteFile_mark f c ow (d sm d' sm' : bytes) ex : floppy d sm -> legal f -> floppy d' sm' -> content d' sm' f = padded c ->
  WriteFile f c ow (d, sm) = ((d', sm'), Ok ex) ->
  release_byte d' = release_byte d \/ exists j, 0 <= j /\ release_byte d' = znth 0 c (256 * j + 3).
Proof.
  intros [Hd Hv _] Hf [Hd' Hv' _] HC E. rewrite !release_sec.
  destruct (WriteFile_touch f c ow d sm d' sm' ex Hd (v_len _ Hv) Hf E) as (_ & _ & HT). destruct (HT 272 ltac:(lia)) as [[H _]|[H _]]; [right|left; rewrite H; reflexivity].
  destruct (sec_in_flat d' (owned sm' f) 272 ltac:(lia) ltac:(lia)) as (j & Hj & Hi).
  - intros k Hk. apply In_owned in Hk as [Hk _]. lia.
  - apply In_owned. split; [lia|exact H].
  - exists j. split; [exact Hj|]. rewrite (Hi 3) by lia. fold (content d' sm' f). rewrite HC. apply padded_byte. lia.
Qed.
(** A sector that belongs to another file keeps owner and bytes. *)
Lemma WriteFile_spares f c ow (d sm d' sm' : bytes) ex g : zlen d = 143360 -> zlen sm = 560 -> legal f ->
  WriteFile f c ow (d, sm) = ((d', sm'), Ok ex) -> znth 0 sm 272 = g -> g <> FREE -> g <> f ->
  zlen d' = 143360 /\ zlen sm' = 560 /\ znth 0 sm' 272 = g /\ release_byte d' = release_byte d.
Proof.
  intros Hd Hl Hf E Hg N1 N2. rewrite !release_sec.
  destruct (WriteFile_touch f c ow d sm d' sm' ex Hd Hl Hf E) as (L1 & L2 & HT). split; [exact L1|]. split; [exact L2|].
  destruct (HT 272 ltac:(lia)) as [[_ [H|H]]|[H1 H2]]; [congruence|congruence|].
  split; [rewrite H2; [exact Hg|congruence]|rewrite H1; reflexivity].
Qed.
Lemma WriteSymbolTable_spares t (d sm d' sm' : bytes) g : zlen d = 143360 -> zlen sm = 560 ->
  WriteSymbolTable t (d, sm) = ((d', sm'), Ok tt) -> znth 0 sm 272 = g -> g <> FREE -> g <> 3 -> g <> 4 ->
  znth 0 sm' 272 = g /\ release_byte d' = release_byte d.
Proof.
  intros Hd Hl E Hg N1 N3 N4. unfold WriteSymbolTable in E. destruct (fill_tables t 0 _ _) as [[b1 b2]|e|] in E; [|discriminate E|discriminate E].
  unfold sbind in E.
  destruct (WriteFile 3 b1 true (d, sm)) as [[d1 sm1] [x1|e|]] eqn:E1; cbn [untag] in E; [|discriminate E|discriminate E].
  destruct (WriteFile 4 b2 true (d1, sm1)) as [[d2 sm2] [x2|e|]] eqn:E2; cbn [untag] in E; [|discriminate E|discriminate E].
  unfold sret in E. injection E as <- <-.
  destruct (WriteFile_spares 3 b1 true d sm d1 sm1 x1 g Hd Hl ltac:(unfold legal; lia) E1 Hg N1 N3) as (L1 & L2 & H1 & H2).
  destruct (WriteFile_spares 4 b2 true d1 sm1 d2 sm2 x2 g L1 L2 ltac:(unfold legal; lia) E2 H1 N1 N4) as (L3 & L4 & H3 & H4).
  split; [exact H3|congruence].
Qed.
Lemma release_persist d sm : zlen d = 143360 -> zlen sm = 560 -> release_byte (upd d 2512 sm) = release_byte d.
Proof. intros Hd Hs. rewrite !release_sec, sec_upd_other by lia. reflexivity. Qed.
