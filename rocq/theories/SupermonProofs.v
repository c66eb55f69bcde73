(** SupermonProofs.v -- proofs about the sector map part of SupermonModel.v. *)
From Verif Require Import GoBase GoLemmas DiskModel DiskSpec DiskProofs TypesModel SupermonModel SupermonSpec.
From Coq Require Import ZifyBool ZifyNat Permutation.
Ltac Zify.zify_post_hook ::= Z.div_mod_to_equations.

(** ** Track/sector pairs as sector numbers *)
Definition ts (k : Z) : Z * Z := (k / 16, k mod 16).

Lemma all_ts_eq : all_ts = map ts (zrange 560).
Proof. vm_compute. reflexivity. Qed.

Local Opaque zrange.

Lemma FileForSector_ts sm k : 0 <= k < 560 -> FileForSector sm (k / 16) (k mod 16) = znth 0 sm k.
Proof.
  intros Hk. unfold FileForSector.
  replace (35 <=? k / 16) with false by lia. replace (16 <=? k mod 16) with false by lia.
  f_equal. lia.
Qed.
Lemma ReadSector_ts d k : 0 <= k -> 256 * k + 256 <= zlen d ->
  ReadSector d (k / 16) (k mod 16) = Ok (sec d k).
Proof.
  intros Hk Hd. unfold ReadSector, sec, FloppyTrackBytes, FloppySectors.
  replace (zlen d <? _) with false by lia. do 2 f_equal; lia.
Qed.
Lemma WriteSector_ts d k c : 0 <= k -> 256 * k + 256 <= zlen d -> zlen c = 256 ->
  WriteSector (k / 16) (k mod 16) c d = (upd d (256 * k) c, Ok tt).
Proof.
  intros Hk Hd Hc. unfold WriteSector, FloppyTrackBytes, FloppySectors.
  replace (zlen c =? 256) with true by lia. cbn [negb].
  replace (zlen d <? _) with false by lia. do 2 f_equal; lia.
Qed.

Lemma ReadSector_0 d s : 0 <= s -> 256 * s + 256 <= zlen d -> ReadSector d 0 s = Ok (sec d s).
Proof.
  intros Hk Hd. unfold ReadSector, sec, FloppyTrackBytes, FloppySectors.
  replace (zlen d <? _) with false by lia. do 2 f_equal; lia.
Qed.
Lemma WriteSector_0 d s c : 0 <= s -> 256 * s + 256 <= zlen d -> zlen c = 256 ->
  WriteSector 0 s c d = (upd d (256 * s) c, Ok tt).
Proof.
  intros Hk Hd Hc. unfold WriteSector, FloppyTrackBytes, FloppySectors.
  replace (zlen c =? 256) with true by lia. cbn [negb].
  replace (zlen d <? _) with false by lia. do 2 f_equal; lia.
Qed.

Lemma filter_map {A B} (g : A -> B) p l : filter p (map g l) = map g (filter (fun x => p (g x)) l).
Proof. induction l as [|x l IH]; [reflexivity|]. cbn [map filter]. destruct (p (g x)); cbn [map]; congruence. Qed.

Lemma In_owned sm f k : In k (owned sm f) <-> 0 <= k < 560 /\ znth 0 sm k = f.
Proof. unfold owned. rewrite filter_In, In_zrange. lia. Qed.
Lemma NoDup_owned sm f : NoDup (owned sm f).
Proof. apply NoDup_filter, NoDup_zrange. Qed.

Lemma SectorsForFile_owned sm f : SectorsForFile sm f = map ts (owned sm f).
Proof.
  unfold SectorsForFile, owned. rewrite all_ts_eq, filter_map. f_equal.
  apply filter_ext_in. intros k Hk. apply In_zrange in Hk. cbn [fst snd ts].
  rewrite FileForSector_ts by lia. apply Z.eqb_sym.
Qed.

Lemma map_zrange_self {A} (dv : A) l : l = map (znth dv l) (zrange (zlen l)).
Proof.
  apply (znth_ext dv).
  - rewrite zlen_map, zlen_zrange; [reflexivity | apply zlen_nonneg].
  - intros i Hi. rewrite (znth_map _ 0) by (rewrite zlen_zrange; lia).
    rewrite znth_zrange by lia. reflexivity.
Qed.
Lemma FreeSectors_owned sm : zlen sm = 560 -> FreeSectors sm = zlen (owned sm FREE).
Proof.
  intros Hl. unfold FreeSectors, owned. rewrite (map_zrange_self 0 sm) at 1.
  rewrite filter_map, zlen_map, Hl. reflexivity.
Qed.

(** ** Verify *)
Lemma Verify_spec sm : zlen sm = 560 -> (Verify sm = Ok tt <-> verified sm) /\ Verify sm <> Panic.
Proof.
  intros Hl. unfold Verify.
  destruct (existsb _ (zrange 12)) eqn:E1; [|destruct (existsb _ all_ts) eqn:E2]; (split; [split|]); try (intros HH; discriminate HH); try (intros _; reflexivity).
  - intros [_ Hr _]. apply existsb_exists in E1 as (k & Hk & E). apply In_zrange in Hk.
    specialize (Hr k Hk). rewrite <- (FileForSector_ts sm k) in Hr by lia.
    replace (k / 16) with 0 in Hr by lia. replace (k mod 16) with k in Hr by lia.
    unfold RESERVED, FileReserved in *. lia.
  - intros [_ _ Hg]. apply existsb_exists in E2 as ([t s] & Hk & E).
    rewrite all_ts_eq in Hk. apply in_map_iff in Hk as (k & Ek & Hk). apply In_zrange in Hk.
    unfold ts in Ek. inversion Ek; subst. cbn [fst snd] in E.
    rewrite FileForSector_ts in E by lia. specialize (Hg k Hk). unfold FileIllegal in E. lia.
  - intros _. constructor; [exact Hl | |].
    + intros k Hk. destruct (Z.eq_dec (znth 0 sm k) RESERVED) as [H|H]; [exact H|exfalso].
      assert (existsb (fun s => negb (FileForSector sm 0 s =? FileReserved)) (zrange 12) = true) as E; [|congruence].
      apply existsb_exists. exists k. split; [apply In_zrange; lia|].
      replace (FileForSector sm 0 k) with (znth 0 sm k).
      * unfold FileReserved, RESERVED in *. lia.
      * rewrite <- (FileForSector_ts sm k) by lia. f_equal; lia.
    + intros k Hk H0.
      assert (existsb (fun p => FileForSector sm (fst p) (snd p) =? FileIllegal) all_ts = true) as E; [|congruence].
      apply existsb_exists. exists (ts k). split.
      * rewrite all_ts_eq. apply in_map, In_zrange. lia.
      * cbn [fst snd ts]. rewrite FileForSector_ts by lia. unfold FileIllegal. lia.
Qed.

(** ** LoadSectorMap and Persist *)
Lemma LoadSectorMap_ok d : 3072 <= zlen d -> LoadSectorMap d = Ok (stored_map d).
Proof.
  intros Hd. unfold LoadSectorMap.
  rewrite (ReadSector_0 d 9), (ReadSector_0 d 10), (ReadSector_0 d 11) by lia. cbn [rbind].
  f_equal. unfold stored_map, sec.
  rewrite sub_sub by lia.
  change (256 * 9 + 0xd0) with 2512. change (256 * 9 + 256) with 2560. change (256 * 10) with 2560.
  change (2560 + 256) with 2816. change (256 * 11) with 2816. change (2816 + 256) with 3072.
  assert (zlen (sub d 2512 2560) = 48) as L1 by (rewrite zlen_sub; lia).
  assert (zlen (sub d 2560 2816) = 256) as L2 by (rewrite zlen_sub; lia).
  assert (zlen (sub d 2816 3072) = 256) as L3 by (rewrite zlen_sub; lia).
  pose proof (zlen_zeros 560 ltac:(lia)) as L0.
  replace 0x30 with (0 + zlen (sub d 2512 2560)) by lia.
  rewrite upd_upd_adj by lia.
  replace 0x130 with (0 + zlen (sub d 2512 2560 ++ sub d 2560 2816)) by (rewrite zlen_app; lia).
  rewrite upd_upd_adj by (rewrite ?zlen_app; lia).
  rewrite <- !sub_app_split by lia.
  assert (zlen (sub d 2512 3072) = 560) by (rewrite zlen_sub; lia).
  transitivity (sub (upd (zeros 560) 0 (sub d 2512 3072)) 0 560).
  - replace 560 with (zlen (upd (zeros 560) 0 (sub d 2512 3072))) at 3 by (rewrite zlen_upd; lia).
    rewrite sub_full. reflexivity.
  - apply sub_upd_same; lia.
Qed.
Lemma ReadSector_err d t s : zlen d < 4096 * t + 256 * s + 256 ->
  ReadSector d t s = Err (EOther "cannot read track/sector").
Proof.
  intros H. unfold ReadSector, FloppyTrackBytes, FloppySectors.
  replace (zlen d <? _) with true by lia. reflexivity.
Qed.
Lemma LoadSectorMap_err d : zlen d < 3072 -> exists e, LoadSectorMap d = Err e.
Proof.
  intros Hd. unfold LoadSectorMap.
  destruct (Z.ltb_spec (zlen d) 2560).
  { rewrite ReadSector_err by lia. eexists; reflexivity. }
  rewrite (ReadSector_0 d 9) by lia. cbn [rbind].
  destruct (Z.ltb_spec (zlen d) 2816).
  { rewrite ReadSector_err by lia. eexists; reflexivity. }
  rewrite (ReadSector_0 d 10) by lia. cbn [rbind].
  rewrite ReadSector_err by lia. eexists; reflexivity.
Qed.
Lemma zlen_stored_map d : 3072 <= zlen d -> zlen (stored_map d) = 560.
Proof. intros; unfold stored_map; rewrite zlen_sub; lia. Qed.

Lemma zlen_sec d k : 0 <= k -> 256 * k + 256 <= zlen d -> zlen (sec d k) = 256.
Proof. intros; unfold sec; rewrite zlen_sub; lia. Qed.

Lemma upd_upd_sub {A} (l : list A) a b c :
  0 <= a -> a <= b -> b + zlen c <= zlen l ->
  forall x, x = b + zlen c -> upd l a (upd (sub l a x) (b - a) c) = upd l b c.
Proof.
  intros Ha Hb Hc x ->. pose proof (zlen_nonneg c).
  destruct l as [|x0 l0].
  { rewrite zlen_nil in Hc. destruct c; [|rewrite zlen_cons in *; pose proof (zlen_nonneg c); lia].
    rewrite zlen_nil in *. assert (a = 0) by lia. assert (b = 0) by lia. subst. reflexivity. }
  set (l := x0 :: l0) in *.
  assert (zlen (sub l a (b + zlen c)) = b + zlen c - a) as L by (rewrite zlen_sub; lia).
  assert (zlen (upd (sub l a (b + zlen c)) (b - a) c) = b + zlen c - a) as L' by (rewrite zlen_upd; lia).
  apply (znth_ext x0).
  - rewrite !zlen_upd; lia.
  - intros i Hi. rewrite zlen_upd in Hi by lia. rewrite (znth_upd x0 l a), (znth_upd x0 l b) by lia. rewrite L'.
    destruct ((a <=? i) && _) eqn:E1; [|replace ((b <=? i) && (i <? b + zlen c)) with false by lia; reflexivity].
    rewrite znth_upd by lia.
    replace ((b - a <=? i - a) && (i - a <? b - a + zlen c)) with ((b <=? i) && (i <? b + zlen c)) by lia.
    destruct ((b <=? i) && (i <? b + zlen c)) eqn:E2; [f_equal; lia|].
    rewrite znth_sub by lia. f_equal; lia.
Qed.

Lemma Persist_ok sm d : zlen sm = 560 -> 3072 <= zlen d -> Persist sm d = (upd d 2512 sm, Ok tt).
Proof.
  intros Hs Hd. unfold Persist. rewrite (ReadSector_0 d 9) by lia. unfold sbind.
  assert (zlen (sub sm 0 48) = 48) as L1 by (rewrite zlen_sub; lia).
  assert (zlen (sub sm 48 304) = 256) as L2 by (rewrite zlen_sub; lia).
  assert (zlen (sub sm 304 560) = 256) as L3 by (rewrite zlen_sub; lia).
  pose proof (zlen_sec d 9 ltac:(lia) ltac:(lia)).
  rewrite (WriteSector_0 d 9) by (rewrite ?zlen_upd; lia).
  assert (upd d (256 * 9) (upd (sec d 9) 0xd0 (sub sm 0 0x30)) = upd d 2512 (sub sm 0 48)) as ->.
  { apply (upd_upd_sub d (256 * 9) 2512 (sub sm 0 48)); lia. }
  assert (zlen (upd d 2512 (sub sm 0 48)) = zlen d) by (apply zlen_upd; lia).
  rewrite (WriteSector_0 _ 10) by lia.
  assert (zlen (upd (upd d 2512 (sub sm 0 48)) (256 * 10) (sub sm 48 304)) = zlen d) by (rewrite zlen_upd; lia).
  rewrite (WriteSector_0 _ 11) by lia.
  f_equal.
  replace (256 * 10) with (2512 + zlen (sub sm 0 48)) by lia. rewrite upd_upd_adj by lia.
  replace (256 * 11) with (2512 + zlen (sub sm 0 48 ++ sub sm 48 304)) by (rewrite zlen_app; lia).
  rewrite upd_upd_adj by (rewrite ?zlen_app; lia).
  rewrite <- !sub_app_split by lia. rewrite <- Hs. rewrite sub_full. reflexivity.
Qed.
Lemma Persist_err sm d : zlen sm = 560 -> zlen d < 3072 -> exists d' e, Persist sm d = (d', Err e).
Proof.
  intros Hs Hd. unfold Persist.
  destruct (Z.ltb_spec (zlen d) 2560).
  { rewrite ReadSector_err by lia. do 2 eexists; reflexivity. }
  rewrite (ReadSector_0 d 9) by lia. unfold sbind.
  assert (zlen (sub sm 0 48) = 48) as L1 by (rewrite zlen_sub; lia).
  assert (zlen (sub sm 48 304) = 256) as L2 by (rewrite zlen_sub; lia).
  assert (zlen (sub sm 304 560) = 256) as L3 by (rewrite zlen_sub; lia).
  pose proof (zlen_sec d 9 ltac:(lia) ltac:(lia)).
  rewrite (WriteSector_0 d 9) by (rewrite ?zlen_upd; lia).
  assert (forall d t s c, zlen c = 256 -> zlen d < 4096 * t + 256 * s + 256 ->
            exists e, WriteSector t s c d = (d, Err e)) as HE.
  { intros d0 t s c Hc Ht. unfold WriteSector, FloppyTrackBytes, FloppySectors. rewrite Hc.
    cbn [negb Z.eqb Pos.eqb]. replace (zlen d0 <? _) with true by lia. eexists; reflexivity. }
  set (d1 := upd d (256 * 9) _).
  assert (zlen d1 = zlen d) by (apply zlen_upd; rewrite ?zlen_upd; lia).
  destruct (Z.ltb_spec (zlen d) 2816).
  { destruct (HE d1 0 10 (sub sm 48 304)) as [e ->]; [lia | lia|]. do 2 eexists; reflexivity. }
  rewrite (WriteSector_0 _ 10) by lia.
  destruct (HE (upd d1 (256 * 10) (sub sm 48 304)) 0 11 (sub sm 304 560)) as [e ->];
    [lia | rewrite zlen_upd; lia|]. do 2 eexists; reflexivity.
Qed.

Lemma sec_upd_other d k a c : 0 <= k -> 0 <= a -> a + zlen c <= zlen d ->
  256 * k + 256 <= a \/ a + zlen c <= 256 * k -> sec (upd d a c) k = sec d k.
Proof.
  intros Hk Ha Hc [H|H]; unfold sec.
  - apply sub_upd_before; lia.
  - apply sub_upd_after; lia.
Qed.
Lemma sec_upd_same d k c : 0 <= k -> 256 * k + 256 <= zlen d -> zlen c = 256 -> sec (upd d (256 * k) c) k = c.
Proof. intros; unfold sec; apply sub_upd_same; lia. Qed.

(** ** ReadFile *)
Lemma ReadFile_loop_spec d ks acc : (forall k, In k ks -> 0 <= k < 560) -> zlen d = 143360 ->
  ReadFile_loop d (map ts ks) acc = Ok (acc ++ flat_map (sec d) ks).
Proof.
  intros Hks Hd. revert acc. induction ks as [|k ks IH]; intros acc.
  - cbn [map ReadFile_loop flat_map]. rewrite app_nil_r. reflexivity.
  - cbn [map ReadFile_loop flat_map]. unfold ts at 1.
    assert (0 <= k < 560) by (apply Hks; left; reflexivity).
    rewrite ReadSector_ts by lia. cbn [rbind]. rewrite IH.
    + rewrite app_assoc. reflexivity.
    + intros k' Hk'. apply Hks; right; exact Hk'.
Qed.
Lemma ReadFile_spec d sm f : zlen d = 143360 -> ReadFile sm d f = Ok (content d sm f).
Proof.
  intros Hd. unfold ReadFile. rewrite SectorsForFile_owned.
  unfold content. rewrite ReadFile_loop_spec; [rewrite app_nil_l; reflexivity | | exact Hd].
  intros k Hk. apply In_owned in Hk. lia.
Qed.

Lemma zlen_flat_sec d ks : (forall k, In k ks -> 0 <= k < 560) -> zlen d = 143360 ->
  zlen (flat_map (sec d) ks) = 256 * zlen ks.
Proof.
  intros Hks Hd. induction ks as [|k ks IH]; [reflexivity|].
  cbn [flat_map]. rewrite zlen_app, zlen_cons, IH.
  - rewrite zlen_sec; [lia| |]; specialize (Hks k (or_introl eq_refl)); lia.
  - intros k' Hk'; apply Hks; right; exact Hk'.
Qed.
Lemma zlen_content d sm f : zlen d = 143360 -> zlen (content d sm f) = 256 * zlen (owned sm f).
Proof.
  intros Hd. apply zlen_flat_sec; [|exact Hd]. intros k Hk. apply In_owned in Hk. lia.
Qed.

(** ** Delete *)
Lemma zlen_SMDelete sm f : zlen (SMDelete sm f) = zlen sm.
Proof. unfold SMDelete. apply zlen_map. Qed.
Lemma znth_SMDelete sm f k : zlen sm = 560 -> 0 <= k < 560 ->
  znth 0 (SMDelete sm f) k = if znth 0 sm k =? f then FREE else znth 0 sm k.
Proof. intros Hl Hk. unfold SMDelete. rewrite (znth_map _ 0) by lia. reflexivity. Qed.
Lemma owned_SMDelete_same sm f : zlen sm = 560 -> f <> FREE -> owned (SMDelete sm f) f = [].
Proof.
  intros Hl Hf. destruct (owned (SMDelete sm f) f) as [|k l] eqn:E; [reflexivity|].
  assert (In k (owned (SMDelete sm f) f)) as Hin by (rewrite E; left; reflexivity).
  apply In_owned in Hin as [Hk H]. rewrite znth_SMDelete in H by lia.
  destruct (znth 0 sm k =? f) eqn:E2; unfold FREE in *; lia.
Qed.
Lemma owned_SMDelete_other sm f g : zlen sm = 560 -> g <> f -> g <> FREE -> owned (SMDelete sm f) g = owned sm g.
Proof.
  intros Hl Hg Hg2. unfold owned. apply filter_ext_in. intros k Hk. apply In_zrange in Hk.
  rewrite znth_SMDelete by lia. unfold FREE in *. destruct (Z.eqb_spec (znth 0 sm k) f); lia.
Qed.
Lemma zlen_filter_or {A} (p q : A -> bool) l : (forall x, In x l -> p x && q x = false) ->
  zlen (filter (fun x => p x || q x) l) = zlen (filter p l) + zlen (filter q l).
Proof.
  intros H. induction l as [|x l IH]; [reflexivity|].
  cbn [filter]. specialize (H x (or_introl eq_refl)) as Hx.
  destruct (p x), (q x); cbn [andb orb] in Hx |- *; try discriminate; rewrite ?zlen_cons, IH; try lia;
    intros y Hy; apply H; right; exact Hy.
Qed.
Lemma owned_SMDelete_free sm f : zlen sm = 560 -> f <> FREE ->
  zlen (owned (SMDelete sm f) FREE) = zlen (owned sm FREE) + zlen (owned sm f).
Proof.
  intros Hl Hf. unfold owned. rewrite <- zlen_filter_or.
  - f_equal. apply filter_ext_in. intros k Hk. apply In_zrange in Hk.
    rewrite znth_SMDelete by lia. unfold FREE in *. destruct (Z.eqb_spec (znth 0 sm k) f); lia.
  - intros k _. unfold FREE in *. lia.
Qed.
Lemma verified_SMDelete sm f : verified sm -> legal f -> verified (SMDelete sm f).
Proof.
  intros [Hl Hr Hg] Hf. unfold legal, RESERVED, FREE in *. constructor.
  - rewrite zlen_SMDelete; exact Hl.
  - intros k Hk. rewrite znth_SMDelete by lia. rewrite (Hr k Hk). unfold RESERVED.
    replace (254 =? f) with false by lia. reflexivity.
  - intros k Hk. rewrite znth_SMDelete by lia. specialize (Hg k Hk). unfold FREE.
    destruct (znth 0 sm k =? f); lia.
Qed.

(** ** The write loop *)
Definition memb (k : Z) (l : list Z) : bool := existsb (Z.eqb k) l.
Lemma memb_In k l : memb k l = true <-> In k l.
Proof.
  unfold memb. rewrite existsb_exists. split.
  - intros (x & Hx & E). apply Z.eqb_eq in E. subst. exact Hx.
  - intros H. exists k. split; [exact H | apply Z.eqb_refl].
Qed.
Lemma In_firstn {A} (x : A) n l : In x (firstn n l) -> In x l.
Proof. intros H. rewrite <- (firstn_skipn n l). apply in_or_app. left; exact H. Qed.

Lemma WriteFile_loop_spec f need cts : legal f -> zlen cts = 256 * need ->
  forall ks i (d sm : bytes), NoDup ks -> (forall k, In k ks -> 0 <= k < 560) ->
  zlen d = 143360 -> zlen sm = 560 -> 0 <= i < need ->
  let fr := filter (fun k => znth 0 sm k =? FREE) ks in
  let got := firstn (Z.to_nat (need - i)) fr in
  need - i <= zlen fr ->
  exists d' sm', WriteFile_loop f need cts (map ts ks) i (d, sm) = ((d', sm'), Ok tt) /\
    zlen d' = 143360 /\ zlen sm' = 560 /\
    (forall k, 0 <= k < 560 -> znth 0 sm' k = if memb k got then f else znth 0 sm k) /\
    flat_map (sec d') got = sub cts (i * 256) (need * 256) /\
    (forall k, 0 <= k < 560 -> ~ In k got -> sec d' k = sec d k) /\
    (bytes_ok d -> bytes_ok cts -> bytes_ok d').
Proof.
  intros Hf Hcts. unfold legal in Hf.
  induction ks as [|k ks IH]; intros i d sm Hnd Hks Hd Hsm Hi fr got Hneed.
  - subst fr. cbn [filter] in Hneed. rewrite zlen_nil in Hneed. lia.
  - assert (0 <= k < 560) as Hk by (apply Hks; left; reflexivity).
    apply NoDup_cons_iff in Hnd as [Hnotin Hnd].
    assert (forall k', In k' ks -> 0 <= k' < 560) as Hks' by (intros k' Hk'; apply Hks; right; exact Hk').
    cbn [map WriteFile_loop]. unfold ts at 1. rewrite FileForSector_ts by lia.
    unfold FileFree. subst fr. cbn [filter] in Hneed, got. unfold FREE in *.
    change 0xff with 255. destruct (znth 0 sm k =? 255) eqn:Efree.
    + unfold slice. replace ((0 <=? i * 256) && _ && _) with true by lia.
      assert (zlen (sub cts (i * 256) ((i + 1) * 256)) = 256) as Lc by (rewrite zlen_sub; lia).
      rewrite WriteSector_ts by lia.
      unfold SetFileForSector, FileIllegal, FileFree, FileReserved.
      replace (35 <=? k / 16) with false by lia. replace (16 <=? k mod 16) with false by lia.
      replace ((f =? 0) || (f =? 255) || (f =? 254)) with false by lia.
      replace (k / 16 * 16 + k mod 16) with k by lia.
      set (d1 := upd d (256 * k) _). set (sm1 := zset sm k f).
      assert (zlen d1 = 143360) as Ld1 by (unfold d1; rewrite zlen_upd; lia).
      assert (zlen sm1 = 560) as Lsm1 by (unfold sm1; rewrite zlen_zset; lia).
      assert (filter (fun k0 => znth 0 sm1 k0 =? 255) ks = filter (fun k0 => znth 0 sm k0 =? 255) ks) as Efr.
      { apply filter_ext_in. intros k' Hk'. unfold sm1. specialize (Hks' k' Hk').
        rewrite znth_zset by lia. destruct (Z.eqb_spec k' k); [subst; contradiction|reflexivity]. }
      rewrite zlen_cons in Hneed.
      assert (Hsec1 : sec d1 k = sub cts (i * 256) ((i + 1) * 256)) by (apply sec_upd_same; lia).
      assert (Hsec1' : forall k', 0 <= k' < 560 -> k' <> k -> sec d1 k' = sec d k').
      { intros k' Hk' Hne. unfold d1. apply sec_upd_other; try lia. }
      cbv zeta. destruct (i + 1 =? need) eqn:Elast.
      * exists d1, sm1. assert (need - i = 1) as En by lia.
        subst got. rewrite En. change (Z.to_nat 1) with 1%nat. cbn [firstn].
        split; [reflexivity|]. split; [exact Ld1|]. split; [exact Lsm1|]. split; [|split; [|split]].
        -- intros k' Hk'. unfold sm1. rewrite znth_zset by lia. cbn [memb existsb].
           destruct (k' =? k); reflexivity.
        -- cbn [flat_map]. rewrite app_nil_r, Hsec1. f_equal; lia.
        -- intros k' Hk' Hn. apply Hsec1'; [lia|]. intros ->. apply Hn. left; reflexivity.
        -- intros B1 B2. apply bytes_ok_upd; [exact B1 | apply bytes_ok_sub, B2].
      * destruct (IH (i + 1) d1 sm1 Hnd Hks' Ld1 Lsm1) as (d' & sm' & Er & Ld' & Lsm' & Hsm' & Hflat & Hother & Hb).
        { lia. } { rewrite Efr. lia. }
        cbv zeta in Hsm', Hflat, Hother. rewrite Efr in Hsm', Hflat, Hother.
        exists d', sm'. split; [exact Er|]. split; [exact Ld'|]. split; [exact Lsm'|].
        assert (got = k :: firstn (Z.to_nat (need - (i + 1))) (filter (fun k0 => znth 0 sm k0 =? 255) ks)) as Egot.
        { subst got. replace (Z.to_nat (need - i)) with (S (Z.to_nat (need - (i + 1)))) by lia. reflexivity. }
        rewrite Egot. clear Egot. clearbody got.
        set (rest := firstn (Z.to_nat (need - (i + 1))) _) in *.
        assert (~ In k rest) as Hkr.
        { intros Hin. apply In_firstn in Hin. apply filter_In in Hin as [Hin _]. contradiction. }
        split; [|split; [|split]].
        -- intros k' Hk'. rewrite Hsm' by lia. unfold sm1. rewrite znth_zset by lia.
           unfold memb. cbn [existsb].
           destruct (existsb (Z.eqb k') rest) eqn:Em; destruct (Z.eqb_spec k' k); try reflexivity.
        -- cbn [flat_map]. rewrite Hflat. rewrite (Hother k Hk Hkr), Hsec1.
           rewrite <- sub_app_split by lia. reflexivity.
        -- intros k' Hk' Hn. rewrite Hother; [|lia|intros Hin; apply Hn; right; exact Hin].
           apply Hsec1'; [lia|]. intros ->. apply Hn; left; reflexivity.
        -- intros B1 B2. apply Hb; [|exact B2]. apply bytes_ok_upd; [exact B1 | apply bytes_ok_sub, B2].
    + destruct (IH i d sm Hnd Hks' Hd Hsm Hi Hneed) as (d' & sm' & Er & Ld' & Lsm' & Hsm' & Hflat & Hother & Hb).
      exists d', sm'. auto 10.
Qed.

(** ** WriteFile *)
Lemma filter_firstn_memb p (l : list Z) n : NoDup l ->
  firstn n (filter p l) = filter (fun k => memb k (firstn n (filter p l))) l.
Proof.
  intros Hnd. revert n. induction l as [|x l IH]; intros n; [destruct n; reflexivity|].
  apply NoDup_cons_iff in Hnd as [Hx Hnd]. cbn [filter].
  destruct (p x) eqn:Ep.
  - destruct n as [|n].
    + cbn [firstn memb existsb]. clear. induction l; [reflexivity|exact IHl].
    + cbn [firstn memb existsb]. rewrite Z.eqb_refl. cbn [orb]. f_equal.
      rewrite IH at 1 by exact Hnd. apply filter_ext_in. intros y Hy.
      unfold memb. destruct (Z.eqb_spec y x); [subst; contradiction|]. reflexivity.
  - destruct (memb x (firstn n (filter p l))) eqn:Em.
    + apply memb_In, In_firstn, filter_In in Em. destruct Em; contradiction.
    + apply IH, Hnd.
Qed.
Lemma zlen_padded c : zlen (padded c) = 256 * nsec c.
Proof.
  unfold padded, nsec. rewrite zlen_app, zlen_zeros; pose proof (zlen_nonneg c); lia.
Qed.
Lemma padded_cts c : upd (zeros (256 * ((zlen c + 255) / 256))) 0 c = padded c.
Proof.
  unfold padded, nsec, upd, zeros. cbn [Z.to_nat firstn app]. f_equal.
  rewrite Z.add_0_l. pose proof (zlen_nonneg c) as Hc.
  set (m := 256 * ((zlen c + 255) / 256)). assert (zlen c <= m) by (unfold m; lia).
  replace (Z.to_nat m) with (Z.to_nat (zlen c) + Z.to_nat (m - zlen c))%nat by lia.
  rewrite repeat_app, skipn_app, repeat_length.
  rewrite skipn_all2 by (rewrite repeat_length; lia).
  replace (Z.to_nat (zlen c) - Z.to_nat (zlen c))%nat with 0%nat by lia. reflexivity.
Qed.

Lemma zlen_firstn {A} n (l : list A) : 0 <= n <= zlen l -> zlen (firstn (Z.to_nat n) l) = n.
Proof. unfold zlen. intros. rewrite firstn_length. lia. Qed.

(** The three outcomes of WriteFile for non-empty contents. *)
Lemma WriteFile_space f c ow (d sm : bytes) : zlen sm = 560 ->
  zlen (owned sm FREE) + zlen (owned sm f) < nsec c ->
  WriteFile f c ow (d, sm) = ((d, sm), Err EOutOfSpace).
Proof.
  intros Hl H. unfold WriteFile. rewrite FreeSectors_owned by exact Hl.
  rewrite SectorsForFile_owned, zlen_map. unfold nsec in H.
  replace (_ <? _) with true by lia. reflexivity.
Qed.
Lemma WriteFile_exists f c (d sm : bytes) : zlen sm = 560 ->
  nsec c <= zlen (owned sm FREE) + zlen (owned sm f) -> owned sm f <> [] ->
  WriteFile f c false (d, sm) = ((d, sm), Err EFileExists).
Proof.
  intros Hl H Hne. unfold WriteFile. rewrite FreeSectors_owned by exact Hl.
  rewrite SectorsForFile_owned, zlen_map. unfold nsec in H.
  replace (_ <? (zlen c + 255) / 256) with false by lia.
  destruct (owned sm f) as [|k l]; [congruence|]. rewrite zlen_cons. pose proof (zlen_nonneg l).
  replace (0 <? 1 + zlen l) with true by lia. reflexivity.
Qed.

Lemma WriteFile_ok f c ow (d sm : bytes) : zlen d = 143360 -> verified sm -> legal f -> c <> [] ->
  nsec c <= zlen (owned sm FREE) + zlen (owned sm f) ->
  (owned sm f <> [] -> ow = true) ->
  exists d' sm', WriteFile f c ow (d, sm) = ((d', sm'), Ok (0 <? zlen (owned sm f))) /\
    floppy d' sm' /\
    content d' sm' f = padded c /\
    zlen (owned sm' f) = nsec c /\
    zlen (owned sm' FREE) = zlen (owned sm FREE) + zlen (owned sm f) - nsec c /\
    (forall g, g <> f -> g <> FREE -> owned sm' g = owned sm g) /\
    (forall k, 0 <= k < 560 -> znth 0 sm k <> FREE -> znth 0 sm k <> f -> ~ (9 <= k <= 11) -> sec d' k = sec d k) /\
    sub d' 2304 2512 = sub d 2304 2512 /\
    (bytes_ok d -> bytes_ok sm -> bytes_ok c -> bytes_ok d').
Proof.
  intros Hd Hv Hf Hc Hspace How. pose proof (v_len _ Hv) as Hl. unfold legal in Hf.
  unfold WriteFile. rewrite FreeSectors_owned by exact Hl.
  rewrite SectorsForFile_owned, zlen_map. rewrite padded_cts. fold (nsec c).
  replace (_ <? nsec c) with false by lia.
  replace ((0 <? zlen (owned sm f)) && negb ow) with false.
  2:{ destruct (owned sm f); [reflexivity|]. rewrite How by discriminate. rewrite andb_false_r; reflexivity. }
  set (sm1 := if 0 <? zlen (owned sm f) then SMDelete sm f else sm).
  assert (zlen sm1 = 560) as Hl1 by (unfold sm1; destruct (0 <? _); rewrite ?zlen_SMDelete; exact Hl).
  assert (verified sm1) as Hv1.
  { unfold sm1; destruct (0 <? _); [apply verified_SMDelete; assumption | exact Hv]. }
  assert (owned sm1 f = []) as Ho1.
  { unfold sm1. destruct (0 <? zlen (owned sm f)) eqn:E.
    - apply owned_SMDelete_same; [exact Hl | unfold FREE; lia].
    - apply zlen_zero_nil. pose proof (zlen_nonneg (owned sm f)). lia. }
  assert (zlen (owned sm1 FREE) = zlen (owned sm FREE) + zlen (owned sm f)) as Hfree1.
  { unfold sm1. destruct (0 <? zlen (owned sm f)) eqn:E.
    - apply owned_SMDelete_free; [exact Hl | unfold FREE; lia].
    - pose proof (zlen_nonneg (owned sm f)). lia. }
  assert (forall g, g <> f -> g <> FREE -> owned sm1 g = owned sm g) as Hoth1.
  { intros g Hg1 Hg2. unfold sm1. destruct (0 <? _); [apply owned_SMDelete_other; assumption | reflexivity]. }
  assert (forall k, 0 <= k < 560 -> znth 0 sm k <> FREE -> znth 0 sm k <> f -> znth 0 sm1 k = znth 0 sm k) as Hk1.
  { intros k Hk H1 H2. unfold sm1. destruct (0 <? _); [|reflexivity]. rewrite znth_SMDelete by lia.
    replace (znth 0 sm k =? f) with false by lia. reflexivity. }
  assert (bytes_ok sm -> bytes_ok sm1) as Hbsm1.
  { unfold sm1. destruct (0 <? _); [|auto]. unfold SMDelete, bytes_ok. rewrite !Forall_forall.
    intros H x Hx. apply in_map_iff in Hx as (y & <- & Hy). specialize (H y Hy).
    unfold is_byte, FileFree in *. destruct (y =? f); lia. }
  clearbody sm1.
  assert (0 < nsec c) as Hn.
  { unfold nsec. destruct c as [|x c']; [congruence|]. rewrite zlen_cons. pose proof (zlen_nonneg c'). lia. }
  destruct (WriteFile_loop_spec f (nsec c) (padded c) Hf (zlen_padded c) (zrange 560) 0 d sm1)
    as (d2 & sm2 & Er & Ld2 & Lsm2 & Hsm2 & Hflat & Hother & Hb2).
  { apply NoDup_zrange. } { intros k Hk. apply In_zrange in Hk. exact Hk. }
  { exact Hd. } { exact Hl1. } { lia. } { fold (owned sm1 FREE). lia. }
  rewrite all_ts_eq, Er. fold (owned sm1 FREE) in Hsm2, Hflat, Hother.
  rewrite Z.sub_0_r in Hsm2, Hflat, Hother.
  set (got := firstn (Z.to_nat (nsec c)) (owned sm1 FREE)) in *.
  assert (zlen got = nsec c) as Lgot by (apply zlen_firstn; lia).
  assert (forall k, In k got -> 0 <= k < 560 /\ znth 0 sm1 k = FREE) as Hgot.
  { intros k Hk. apply In_firstn, In_owned in Hk. exact Hk. }
  assert (forall k, In k got -> 12 <= k) as Hgot12.
  { intros k Hk. apply Hgot in Hk as [Hk1' Hk2]. destruct (Z.ltb_spec k 12); [|lia].
    rewrite (v_res _ Hv1 k) in Hk2 by lia. discriminate. }
  rewrite Persist_ok by lia.
  exists (upd d2 2512 sm2), sm2. split; [reflexivity|].
  assert (zlen (upd d2 2512 sm2) = 143360) as Ld3 by (rewrite zlen_upd; lia).
  assert (forall k, 0 <= k < 560 -> ~ (9 <= k <= 11) -> sec (upd d2 2512 sm2) k = sec d2 k) as Hsec3.
  { intros k Hk Hk9. apply sec_upd_other; lia. }
  assert (owned sm2 f = got) as Hof.
  { subst got. unfold owned at 2. rewrite filter_firstn_memb by apply NoDup_zrange.
    unfold owned at 1. apply filter_ext_in. intros k Hk. apply In_zrange in Hk.
    rewrite Hsm2 by lia. fold (owned sm1 FREE). destruct (memb k _) eqn:E; [lia|].
    destruct (Z.eqb_spec (znth 0 sm1 k) f) as [He|]; [|reflexivity].
    assert (In k (owned sm1 f)) as Hin by (apply In_owned; lia). rewrite Ho1 in Hin. destruct Hin. }
  split; [|split; [|split; [|split; [|split; [|split; [|split]]]]]].
  - constructor; [exact Ld3 | | unfold stored_map; apply sub_upd_same; lia].
    constructor; [exact Lsm2 | |].
    + intros k Hk. rewrite Hsm2 by lia. destruct (memb k got) eqn:E; [|apply (v_res _ Hv1); lia].
      apply memb_In, Hgot12 in E. lia.
    + intros k Hk. rewrite Hsm2 by lia. destruct (memb k got); [lia | apply (v_leg _ Hv1); lia].
  - unfold content. rewrite Hof. transitivity (flat_map (sec d2) got).
    + clear - Hsec3 Hgot Hgot12. induction got as [|k got IH]; [reflexivity|].
      cbn [flat_map]. rewrite IH, Hsec3; [reflexivity | | | |]; intros.
      * apply Hgot; left; reflexivity.
      * specialize (Hgot12 k (or_introl eq_refl)). lia.
      * apply Hgot; right; assumption.
      * apply Hgot12; right; assumption.
    + rewrite Hflat. rewrite Z.mul_0_l. rewrite Z.mul_comm, <- (zlen_padded c). apply sub_full.
  - rewrite Hof. exact Lgot.
  - (* free count *)
    assert (zlen (owned sm1 FREE) = zlen (owned sm2 FREE) + zlen got) as HH; [|lia].
    rewrite <- Hof. unfold owned. rewrite <- zlen_filter_or.
    + f_equal. apply filter_ext_in. intros k Hk. apply In_zrange in Hk.
      rewrite Hsm2 by lia. destruct (memb k got) eqn:E.
      * apply memb_In, Hgot in E. unfold FREE in *. lia.
      * destruct (Z.eqb_spec (znth 0 sm1 k) f) as [He|]; [|unfold FREE; lia].
        assert (In k (owned sm1 f)) as Hin by (apply In_owned; lia). rewrite Ho1 in Hin. destruct Hin.
    + intros k _. unfold FREE. lia.
  - intros g Hg1 Hg2. rewrite <- Hoth1 by assumption. unfold owned. apply filter_ext_in.
    intros k Hk. apply In_zrange in Hk. rewrite Hsm2 by lia. destruct (memb k got) eqn:E; [|reflexivity].
    apply memb_In, Hgot in E. lia.
  - intros k Hk H1 H2 H3. rewrite Hsec3 by lia. apply Hother; [lia|]. intros Hin.
    apply Hgot in Hin as [_ Hin]. rewrite Hk1 in Hin by assumption. contradiction.
  - rewrite sub_upd_before by lia.
    assert (sec d2 9 = sec d 9) as H9.
    { apply Hother; [lia|]. intros Hin. apply Hgot12 in Hin. lia. }
    transitivity (sub (sec d2 9) 0 208); [unfold sec; rewrite sub_sub by lia; reflexivity|].
    rewrite H9. unfold sec. rewrite sub_sub by lia. reflexivity.
  - intros B1 B2 B3. apply bytes_ok_upd.
    + apply Hb2; [exact B1|]. unfold padded. apply bytes_ok_app. split; [exact B3 | apply bytes_ok_zeros].
    + unfold bytes_ok. apply Forall_forall. intros x Hx. apply (In_znth 0) in Hx as (k & Hk & <-).
      rewrite Hsm2 by lia. unfold is_byte. destruct (memb k got); [lia|].
      apply bytes_ok_znth. auto.
Qed.

Lemma content_same d d' sm sm' g : owned sm' g = owned sm g ->
  (forall k, In k (owned sm g) -> sec d' k = sec d k) -> content d' sm' g = content d sm g.
Proof.
  intros Ho Hs. unfold content. rewrite Ho. clear Ho. induction (owned sm g) as [|k l IH]; [reflexivity|].
  cbn [flat_map]. rewrite Hs by (left; reflexivity). f_equal. apply IH. intros k' Hk'. apply Hs. right; exact Hk'.
Qed.
(** WriteFile as seen through the files. *)
Lemma WriteFile_step f c ow (d sm : bytes) : floppy d sm -> legal f -> c <> [] ->
  nsec c <= zlen (owned sm FREE) + zlen (owned sm f) ->
  (owned sm f <> [] -> ow = true) ->
  exists d' sm', WriteFile f c ow (d, sm) = ((d', sm'), Ok (0 <? zlen (owned sm f))) /\
    floppy d' sm' /\
    content d' sm' f = padded c /\
    zlen (owned sm' f) = nsec c /\
    zlen (owned sm' FREE) = zlen (owned sm FREE) + zlen (owned sm f) - nsec c /\
    (forall g, g <> f -> legal g -> owned sm' g = owned sm g /\ content d' sm' g = content d sm g).
Proof.
  intros [Hd Hv _] Hf Hc Hsp How.
  destruct (WriteFile_ok f c ow d sm Hd Hv Hf Hc Hsp How) as (d' & sm' & E & Fl & C & O & Fr & Oth & Sec & _).
  exists d', sm'. repeat (split; [assumption|]).
  intros g Hg Hlg. assert (owned sm' g = owned sm g) as Ho by (apply Oth; unfold legal, FREE in *; lia).
  split; [exact Ho|]. apply content_same; [exact Ho|].
  intros k Hk. apply In_owned in Hk as [Hk Hkg]. unfold legal, FREE in *. apply Sec; try lia.
  intros H9. rewrite (v_res _ Hv k) in Hkg by lia. unfold RESERVED in Hkg. lia.
Qed.

(** Empty contents: the slice expression is out of range as soon as a sector is free. *)
Lemma WriteFile_empty f ow (d sm : bytes) : verified sm -> legal f -> (owned sm f <> [] -> ow = true) ->
  0 < zlen (owned sm FREE) + zlen (owned sm f) -> exists s, WriteFile f [] ow (d, sm) = (s, Panic).
Proof.
  intros Hv Hf How Hsp. pose proof (v_len _ Hv) as Hl. unfold legal in Hf.
  unfold WriteFile. rewrite FreeSectors_owned by exact Hl.
  rewrite SectorsForFile_owned, zlen_map. rewrite (@zlen_nil Z). change ((0 + 255) / 256) with 0.
  pose proof (zlen_nonneg (owned sm f)). pose proof (zlen_nonneg (owned sm FREE)).
  replace (_ <? 0) with false by lia.
  replace ((0 <? zlen (owned sm f)) && negb ow) with false.
  2:{ destruct (owned sm f); [reflexivity|]. rewrite How by discriminate. rewrite andb_false_r; reflexivity. }
  set (sm1 := if 0 <? zlen (owned sm f) then SMDelete sm f else sm).
  assert (0 < zlen (owned sm1 FREE)) as Hfree1.
  { unfold sm1. destruct (0 <? zlen (owned sm f)) eqn:E; [|lia].
    rewrite owned_SMDelete_free; [lia | exact Hl | unfold FREE; lia]. }
  change (upd (zeros (256 * 0)) 0 []) with (@nil Z).
  rewrite all_ts_eq. clearbody sm1. unfold owned in Hfree1.
  assert (forall ks, (forall k, In k ks -> 0 <= k < 560) ->
            0 < zlen (filter (fun k => znth 0 sm1 k =? FREE) ks) ->
            WriteFile_loop f 0 [] (map ts ks) 0 (d, sm1) = ((d, sm1), Panic)) as HP.
  { induction ks as [|k ks IH]; intros Hks Hfr; [discriminate|].
    cbn [map WriteFile_loop]. unfold ts at 1.
    assert (0 <= k < 560) by (apply Hks; left; reflexivity).
    rewrite FileForSector_ts by lia. cbn [filter] in Hfr. unfold FileFree. unfold FREE in *. change 0xff with 255.
    destruct (znth 0 sm1 k =? 255) eqn:E; [reflexivity|].
    apply IH; [intros k' Hk'; apply Hks; right; exact Hk' | exact Hfr]. }
  rewrite HP; [eexists; reflexivity | intros k Hk; apply In_zrange; exact Hk | exact Hfree1].
Qed.
Lemma WriteFile_empty_full f ow (d sm : bytes) : zlen d = 143360 -> zlen sm = 560 ->
  owned sm FREE = [] -> owned sm f = [] -> f <> FREE ->
  WriteFile f [] ow (d, sm) = ((upd d 2512 sm, sm), Ok false).
Proof.
  intros Hd Hl Hfr Hof Hf.
  unfold WriteFile. rewrite FreeSectors_owned by exact Hl.
  rewrite SectorsForFile_owned, zlen_map, Hfr, Hof, !(@zlen_nil Z). change (0 <? 0) with false. cbn [andb].
  change ((0 + 255) / 256) with 0. change (0 + 0 <? 0) with false.
  change (upd (zeros (256 * 0)) 0 []) with (@nil Z). rewrite all_ts_eq.
  assert (forall ks, (forall k, In k ks -> 0 <= k < 560) ->
            filter (fun k => znth 0 sm k =? FREE) ks = [] ->
            WriteFile_loop f 0 [] (map ts ks) 0 (d, sm) = ((d, sm), Ok tt)) as HP.
  { induction ks as [|k ks IH]; intros Hks Hfr'; [reflexivity|].
    cbn [map WriteFile_loop]. unfold ts at 1.
    assert (0 <= k < 560) by (apply Hks; left; reflexivity).
    rewrite FileForSector_ts by lia. cbn [filter] in Hfr'. unfold FileFree. unfold FREE in *. change 0xff with 255.
    destruct (znth 0 sm k =? 255) eqn:E; [discriminate|].
    apply IH; [intros k' Hk'; apply Hks; right; exact Hk' | exact Hfr']. }
  rewrite HP; [|intros k Hk; apply In_zrange; exact Hk | exact Hfr].
  rewrite Persist_ok by lia. reflexivity.
Qed.

(** ** FirstFreeFile *)
Lemma FirstFreeFile_loop_spec sm a n :
  let r := FirstFreeFile_loop sm (zseq a n) in
  (a <= r < a + Z.of_nat n /\ owned sm r = [] /\ forall f, a <= f < r -> owned sm f <> []) \/
  (r = 0 /\ forall f, a <= f < a + Z.of_nat n -> owned sm f <> []).
Proof.
  revert a. induction n as [|n IH]; intros a.
  - cbn. right. split; [reflexivity | intros; lia].
  - cbn [zseq FirstFreeFile_loop]. rewrite SectorsForFile_owned, zlen_map.
    destruct (Z.eqb_spec (zlen (owned sm a)) 0) as [E|E].
    + left. cbv zeta. split; [lia|]. split; [apply zlen_zero_nil, E | intros; lia].
    + assert (owned sm a <> []) as Ha by (intros H; rewrite H in E; apply E; reflexivity).
      specialize (IH (a + 1)). cbv zeta in IH |- *. destruct IH as [(H1 & H2 & H3)|(H1 & H2)].
      * left. split; [lia|]. split; [exact H2|]. intros f Hf. destruct (Z.eq_dec f a); [congruence | apply H3; lia].
      * right. split; [exact H1|]. intros f Hf. destruct (Z.eq_dec f a); [congruence | apply H2; lia].
Qed.
Lemma FirstFreeFile_spec sm : let r := FirstFreeFile sm in
  (legal r /\ owned sm r = [] /\ forall f, 1 <= f < r -> owned sm f <> []) \/
  (r = 0 /\ forall f, legal f -> owned sm f <> []).
Proof.
  unfold FirstFreeFile, file_numbers, legal.
  destruct (FirstFreeFile_loop_spec sm 1 253) as [H|H]; cbv zeta in *; [left|right].
  - destruct H as (H1 & H2 & H3). split; [lia|]. auto.
  - destruct H as (H1 & H2). split; [exact H1|]. intros f Hf. apply H2. lia.
Qed.
