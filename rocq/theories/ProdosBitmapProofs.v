(** ProdosBitmapProofs.v -- ProDOS volume bitmaps and index blocks (C47-C50, C71). *)
From Verif Require Import GoBase GoLemmas DiskModel DiskSpec TypesModel CodecLemmas ProdosModel ProdosSpec.
From Coq Require Import ZifyBool ZifyNat.
Ltac Zify.zify_post_hook ::= Z.div_mod_to_equations.
Local Opaque zrange zeros sub.

Lemma shift_pow k : 0 <= k < 8 -> u8 (Z.shiftl 1 k) = 2 ^ k.
Proof.
  intros H. assert (k = 0 \/ k = 1 \/ k = 2 \/ k = 3 \/ k = 4 \/ k = 5 \/ k = 6 \/ k = 7) as [E|[E|[E|[E|[E|[E|[E|E]]]]]]] by lia; subst k; reflexivity.
Qed.
Lemma land_pow x k : is_byte x -> 0 <= k < 8 -> (0 <? Z.land x (2 ^ k)) = Z.testbit x k.
Proof.
  intros Hx Hk.
  assert (Z.land x (2 ^ k) = if Z.testbit x k then 2 ^ k else 0) as ->.
  { apply Z.bits_inj'. intros j Hj. rewrite Z.land_spec, Z.pow2_bits_eqb by lia.
    destruct (Z.eqb_spec k j) as [->|E]; [rewrite andb_true_r | rewrite andb_false_r];
      [destruct (Z.testbit x j); [rewrite Z.pow2_bits_eqb, Z.eqb_refl by lia | rewrite Z.bits_0]; reflexivity|].
    destruct (Z.testbit x k); [rewrite Z.pow2_bits_eqb by lia; lia | rewrite Z.bits_0; reflexivity]. }
  pose proof (Z.pow_pos_nonneg 2 k). destruct (Z.testbit x k); lia.
Qed.
Lemma byte_bits x : is_byte x <-> (0 <= x /\ forall k, 8 <= k -> Z.testbit x k = false).
Proof.
  unfold is_byte. split.
  - intros H. split; [lia|]. intros k Hk. destruct (Z.eq_dec x 0) as [->|N]; [apply Z.bits_0|]. apply Z.bits_above_log2; [lia|].
    assert (Z.log2 x < 8) by (apply Z.log2_lt_pow2; [lia | change (2 ^ 8) with 256; lia]). lia.
  - intros [H0 H]. split; [exact H0|]. destruct (Z.eq_dec x 0) as [->|N]; [lia|]. change 256 with (2 ^ 8). apply Z.log2_lt_pow2; [lia|].
    destruct (Z.ltb_spec (Z.log2 x) 8) as [L|L]; [exact L|]. specialize (H _ L). rewrite Z.bit_log2 in H by lia. discriminate.
Qed.
Lemma set_bit x k (set : bool) : is_byte x -> 0 <= k < 8 ->
  let y := if set then Z.lor x (2 ^ k) else Z.ldiff x (2 ^ k) in
  is_byte y /\ forall j, 0 <= j -> Z.testbit y j = if j =? k then set else Z.testbit x j.
Proof.
  intros Hx Hk y. apply byte_bits in Hx as [H0 Hx].
  assert (forall j, 0 <= j -> Z.testbit y j = if j =? k then set else Z.testbit x j) as T.
  { intros j Hj. subst y. destruct set; rewrite ?Z.lor_spec, ?Z.ldiff_spec, Z.pow2_bits_eqb, (Z.eqb_sym k j) by lia; destruct (j =? k);
      rewrite ?orb_true_r, ?orb_false_r, ?andb_false_r, ?andb_true_r; reflexivity. }
  split; [|exact T]. apply byte_bits. split.
  - subst y. destruct set; [apply Z.lor_nonneg; split; [exact H0 | apply Z.pow_nonneg; lia] | apply Z.ldiff_nonneg; left; exact H0].
  - intros j Hj. rewrite T by lia. destruct (Z.eqb_spec j k); [lia | apply Hx; exact Hj].
Qed.

Definition part_of (vbm : list bitmapPart) (b : Z) : bytes := bp_data (znth zeroBP vbm (b / 4096)).
Lemma bit_index b : b / 8 / 512 = b / 4096 /\ b / 8 mod 512 = b mod 4096 / 8 /\ 7 - b mod 8 = 7 - (b mod 4096) mod 8.
Proof. lia. Qed.
Lemma part_arr vbm i : vbm_wf vbm -> arr 512 (bp_data (znth zeroBP vbm i)).
Proof.
  intros W. unfold znth. destruct (nth_in_or_default (Z.to_nat i) vbm zeroBP) as [H|H].
  - unfold vbm_wf in W. rewrite Forall_forall in W. apply W. exact H.
  - rewrite H. split; [reflexivity | apply (bytes_ok_zeros 512)].
Qed.
Lemma IsFree_spec vbm b : vbm_wf vbm -> 0 <= b ->
  IsFree vbm b = if b / 4096 <? zlen vbm then Ok (free_bit (part_of vbm b) (b mod 4096)) else Panic.
Proof.
  intros W Hb. unfold IsFree. destruct (bit_index b) as (-> & -> & ->). rewrite shift_pow by lia.
  destruct (part_arr vbm (b / 4096) W) as [L B].
  replace (0 <=? b / 4096) with true by lia. cbn [andb]. destruct (b / 4096 <? zlen vbm); [|reflexivity]. f_equal.
  unfold free_bit, part_of. apply land_pow; [apply bytes_ok_znth; exact B | lia].
Qed.
Lemma Forall_zset {A} (P : A -> Prop) l i v : Forall P l -> P v -> 0 <= i < zlen l -> Forall P (zset l i v).
Proof. intros H Hv Hi. unfold zset. apply Forall_upd; [exact H | constructor; [exact Hv | constructor]]. Qed.
Lemma map_zset {A B} (f : A -> B) (l : list A) i v : map f (zset l i v) = zset (map f l) i (f v).
Proof. unfold zset, upd. rewrite !map_app. cbn [map]. rewrite firstn_map, skipn_map. reflexivity. Qed.
Lemma zset_same {A} (dd : A) (l : list A) i : 0 <= i < zlen l -> zset l i (znth dd l i) = l.
Proof.
  intros H. apply (znth_ext dd); [rewrite zlen_zset by lia; reflexivity|]. intros j Hj. rewrite znth_zset by (try lia).
  destruct (Z.eqb_spec j i) as [->|]; reflexivity.
Qed.
Lemma mark_ok vbm b set : vbm_wf vbm -> 0 <= b -> b / 4096 < zlen vbm -> exists vbm', mark vbm b set = Ok vbm' /\ vbm_wf vbm' /\
  map bp_block vbm' = map bp_block vbm /\ forall c, 0 <= c -> IsFree vbm' c = if c =? b then Ok set else IsFree vbm c.
Proof.
  intros W Hb Hz. unfold mark. destruct (bit_index b) as (-> & -> & ->). rewrite shift_pow by lia.
  replace ((0 <=? b / 4096) && (b / 4096 <? zlen vbm)) with true by lia. cbv zeta. eexists. split; [reflexivity|].
  destruct (part_arr vbm (b / 4096) W) as [L B]. set (part := znth zeroBP vbm (b / 4096)) in *.
  destruct (set_bit (znth 0 (bp_data part) (b mod 4096 / 8)) (7 - (b mod 4096) mod 8) set) as [Hy T]; [apply bytes_ok_znth; exact B | lia|].
  set (y := if set then _ else _) in *. clearbody y.
  assert (vbm_wf (zset vbm (b / 4096) (mkBP (bp_block part) (zset (bp_data part) (b mod 4096 / 8) y)))) as W'.
  { apply Forall_zset; [exact W | | lia]. cbn [bp_data]. split; [rewrite zlen_zset by lia; exact L|]. apply Forall_zset; [exact B | exact Hy | lia]. }
  split; [exact W'|]. split.
  { rewrite map_zset. cbn [bp_block]. subst part. pose proof (zset_same 0 (map bp_block vbm) (b / 4096)) as E.
    rewrite (znth_map _ zeroBP) in E by lia. apply E. rewrite zlen_map. lia. }
  intros c Hc. rewrite !IsFree_spec by assumption. rewrite zlen_zset by lia. unfold part_of.
  rewrite znth_zset by lia. destruct (Z.eqb_spec (c / 4096) (b / 4096)) as [E|E].
  - cbn [bp_data]. rewrite E. replace (b / 4096 <? zlen vbm) with true by lia. unfold free_bit. rewrite znth_zset by lia. fold part.
    destruct (Z.eqb_spec (c mod 4096 / 8) (b mod 4096 / 8)) as [E2|E2].
    + rewrite T by lia. destruct (Z.eqb_spec (7 - (c mod 4096) mod 8) (7 - (b mod 4096) mod 8)) as [E3|E3].
      * replace (c =? b) with true by lia. reflexivity.
      * replace (c =? b) with false by lia. rewrite E2. reflexivity.
    + replace (c =? b) with false by lia. reflexivity.
  - replace (c =? b) with false by lia. reflexivity.
Qed.
Lemma mark_panic vbm b set : 0 <= b -> zlen vbm <= b / 4096 -> mark vbm b set = Panic.
Proof. intros Hb Hz. unfold mark. destruct (bit_index b) as (-> & _ & _). replace ((0 <=? b / 4096) && (b / 4096 <? zlen vbm)) with false by lia. reflexivity. Qed.

Lemma markAll_ok bs : forall vbm, vbm_wf vbm -> Forall (fun b => 0 <= b < 65536 /\ b / 4096 < zlen vbm) bs -> exists vbm',
  markAllUnused bs vbm = Ok vbm' /\ vbm_wf vbm' /\ map bp_block vbm' = map bp_block vbm /\
  forall c, 0 <= c -> (In c bs -> IsFree vbm' c = Ok true) /\ (~ In c bs -> IsFree vbm' c = IsFree vbm c).
Proof.
  induction bs as [|b bs IH]; intros vbm W F; cbn [markAllUnused].
  - exists vbm. split; [reflexivity|]. split; [exact W|]. split; [reflexivity|]. intros c Hc. split; [intros [] | reflexivity].
  - inversion F as [|? ? [H1 H2] F']; subst. unfold u16, MarkUnused. rewrite Z.mod_small by lia.
    destruct (mark_ok vbm b true W) as (v1 & -> & W1 & M1 & I1); [lia | exact H2|]. cbn [rbind].
    assert (zlen v1 = zlen vbm) as L1. { rewrite <- (zlen_map bp_block v1), M1, zlen_map. reflexivity. }
    destruct (IH v1 W1) as (v2 & E2 & W2 & M2 & I2); [rewrite L1; exact F'|]. exists v2. split; [exact E2|]. split; [exact W2|]. split; [congruence|].
    intros c Hc. destruct (I2 c Hc) as [Ia Ib]. specialize (I1 c Hc). destruct (in_dec Z.eq_dec c bs) as [Hin|Hin].
    + split; [intros _; apply Ia; exact Hin | intros N; exfalso; apply N; right; exact Hin].
    + rewrite (Ib Hin), I1. destruct (Z.eqb_spec c b) as [Ec|Nc].
      * split; [reflexivity | intros N; exfalso; apply N; left; symmetry; exact Ec].
      * split; [intros [E|E]; [congruence | contradiction] | reflexivity].
Qed.
Lemma free_bit_zeros b : 0 <= b -> free_bit (zeros 512) b = false.
Proof. intros H. unfold free_bit. rewrite znth_zeros by lia. apply Z.bits_0. Qed.
Definition fresh_vbm (start n : Z) : list bitmapPart := map (fun i => mkBP (u16 (start + u16 i)) (zeros 512)) (zrange n).
Lemma fresh_ok start n : 0 <= n -> vbm_wf (fresh_vbm start n) /\ zlen (fresh_vbm start n) = n /\
  map bp_block (fresh_vbm start n) = map (fun i => u16 (start + u16 i)) (zrange n) /\
  forall c, 0 <= c -> IsFree (fresh_vbm start n) c = if c / 4096 <? n then Ok false else Panic.
Proof.
  intros Hn. assert (vbm_wf (fresh_vbm start n)) as W.
  { apply Forall_map, Forall_forall. intros i _. cbn [bp_data]. split; [reflexivity | apply (bytes_ok_zeros 512)]. }
  assert (zlen (fresh_vbm start n) = n) as L by (unfold fresh_vbm; rewrite zlen_map, zlen_zrange by lia; reflexivity).
  split; [exact W|]. split; [exact L|]. split; [unfold fresh_vbm; rewrite map_map; reflexivity|].
  intros c Hc. rewrite IsFree_spec by assumption. rewrite L. destruct (Z.ltb_spec (c / 4096) n); [|reflexivity]. f_equal.
  unfold part_of, fresh_vbm. rewrite (znth_map _ 0) by (rewrite zlen_zrange by lia; lia). cbn [bp_data]. apply free_bit_zeros. lia.
Qed.
Definition parts_for (n : Z) : Z := (n + 4095) / 4096.
Lemma New_ok start n : is_u16 start -> 0 <= n <= 61440 -> exists vbm, NewVolumeBitMap start n = Ok vbm /\ vbm_wf vbm /\
  zlen vbm = parts_for n /\ map bp_block vbm = map (fun i => (start + i) mod 65536) (zrange (parts_for n)) /\
  forall c, 0 <= c -> IsFree vbm c = if c <? n then Ok true else if c <? 4096 * parts_for n then Ok false else Panic.
Proof.
  intros Hs Hn. unfold NewVolumeBitMap. cbv zeta.
  assert (u16 (u16 (n + 4096) - 1) / 4096 = parts_for n) as -> by (unfold u16, parts_for; lia).
  assert (0 <= parts_for n <= 15) as Hp by (unfold parts_for; lia).
  destruct (fresh_ok start (parts_for n) (proj1 Hp)) as (W & L & M & I).
  destruct (markAll_ok (zrange n) (fresh_vbm start (parts_for n)) W) as (v & E & W' & M' & I').
  { apply Forall_forall. intros b Hb. apply In_zrange in Hb. rewrite L. unfold parts_for. lia. }
  exists v. split; [exact E|]. split; [exact W'|]. split; [rewrite <- (zlen_map bp_block v), M', zlen_map; exact L|]. split.
  { rewrite M', M. apply map_ext_in. intros i Hi. apply In_zrange in Hi. unfold u16, is_u16 in *. lia. }
  intros c Hc. destruct (I' c Hc) as [Ia Ib]. destruct (Z.ltb_spec c n) as [H|H].
  - apply Ia, In_zrange. lia.
  - rewrite Ib by (intros Hin; apply In_zrange in Hin; lia). rewrite I by exact Hc.
    destruct (Z.ltb_spec (c / 4096) (parts_for n)), (Z.ltb_spec c (4096 * parts_for n)); try reflexivity; lia.
Qed.
Lemma zrange_cons n : 0 < n -> exists l, zrange n = 0 :: l.
Proof.
  intros H. destruct (zrange n) as [|x l] eqn:E.
  - pose proof (zlen_zrange n ltac:(lia)) as L. rewrite E in L. unfold zlen in L; cbn in L. lia.
  - pose proof (znth_zrange n 0 ltac:(lia)) as Hx. rewrite E, znth_cons_0 in Hx. subst. eauto.
Qed.
Lemma New_panic start n : 61440 < n < 65536 -> NewVolumeBitMap start n = Panic.
Proof.
  intros Hn. unfold NewVolumeBitMap. cbv zeta. replace (u16 (u16 (n + 4096) - 1) / 4096) with 0 by (unfold u16; lia).
  destruct (zrange_cons n ltac:(lia)) as [l ->]. cbn [markAllUnused]. unfold MarkUnused. rewrite mark_panic; [reflexivity | reflexivity|].
  rewrite zrange_nonpos by lia. vm_compute. discriminate.
Qed.

Lemma unm_part d bp : is_u16 (bp_block bp) -> UnmarshalBlock (bp_FromBlock bp) bp_SetBlock d (bp_block bp) =
  if zlen d <? 512 * bp_block bp + 512 then Err (EOther "device too small to read block") else Ok (mkBP (bp_block bp) (blk d (bp_block bp))).
Proof.
  intros H. unfold UnmarshalBlock, blk. cbv zeta. replace (bp_block bp * 512) with (512 * bp_block bp) by lia. reflexivity.
Qed.
Lemma read_small d start : is_u16 start -> zlen d < 4096 * 512 -> readVolumeBitMap d start = Ok [].
Proof.
  intros Hs H. pose proof (zlen_nonneg d). unfold readVolumeBitMap. cbv zeta.
  replace (u16 (zlen d / 512 / 4096)) with 0 by (unfold u16; lia).
  unfold NewVolumeBitMap. cbv zeta. change (u16 (u16 (0 + 4096) - 1) / 4096) with 0. rewrite zrange_nonpos by lia. reflexivity.
Qed.
Lemma read_big d start : is_u16 start -> 4096 * 512 <= zlen d <= 65536 * 512 -> readVolumeBitMap d start =
  if zlen d <? 512 * start + 512 then Err (EOther "device too small to read block") else Ok [mkBP start (blk d start)].
Proof.
  intros Hs H. unfold readVolumeBitMap. cbv zeta.
  replace (u16 (zlen d / 512 / 4096)) with (zlen d / 512 / 4096) by (unfold u16; lia).
  set (n := zlen d / 512 / 4096). assert (1 <= n <= 16) as Hn by (unfold n; lia). clearbody n.
  destruct (New_ok start n Hs ltac:(lia)) as (vbm & -> & W & L & M & _). cbn [rbind].
  assert (parts_for n = 1) as P by (unfold parts_for; lia). rewrite P in *.
  destruct vbm as [|bp [|]]; unfold zlen in L; cbn [length] in L; try lia.
  change (zrange 1) with [0] in M. cbn [map] in M. injection M as M. assert (bp_block bp = start) as Eb by (unfold is_u16 in *; lia). clear M.
  cbn [Dos3Model.mapres]. rewrite unm_part by (rewrite Eb; exact Hs). rewrite Eb. destruct (zlen d <? 512 * start + 512); reflexivity.
Qed.
Lemma read_total d start : is_u16 start -> zlen d <= 65536 * 512 -> (exists v, readVolumeBitMap d start = Ok v) \/ (exists e, readVolumeBitMap d start = Err e).
Proof.
  intros Hs H. destruct (Z.ltb_spec (zlen d) (4096 * 512)); [left; rewrite read_small by assumption; eauto|].
  rewrite read_big by (try assumption; lia). destruct (zlen d <? 512 * start + 512); eauto.
Qed.

(** ** Writing a bitmap *)
Lemma blk_upd_same (d b : bytes) n : 0 <= n -> in_dev d n -> zlen b = 512 -> blk (upd d (512 * n) b) n = b.
Proof. intros Hn Hd Hb. unfold blk, in_dev in *. apply sub_upd_same; lia. Qed.
Lemma blk_upd_other (d b : bytes) n m : 0 <= n -> 0 <= m -> in_dev d n -> zlen b = 512 -> m <> n -> blk (upd d (512 * n) b) m = blk d m.
Proof.
  intros Hn Hm Hd Hb N. unfold blk, in_dev in *. destruct (Z.ltb_spec m n); [apply sub_upd_before; lia | apply sub_upd_after; lia].
Qed.
Lemma write_part (d : bytes) bp : 0 <= bp_block bp -> MarshalBlock bp_ToBlock bp_block bp d =
  if zlen d <? 512 * bp_block bp + 512 then (d, Err (EOther "device too small to write block")) else (upd d (512 * bp_block bp) (bp_data bp), Ok tt).
Proof. intros H. unfold MarshalBlock, bp_ToBlock. replace (bp_block bp * 512) with (512 * bp_block bp) by lia. reflexivity. Qed.
Lemma Write_ok vbm : forall d, vbm_wf vbm -> Forall (fun p => is_u16 (bp_block p) /\ in_dev d (bp_block p)) vbm -> NoDup (map bp_block vbm) ->
  exists d', Write vbm d = (d', Ok tt) /\ zlen d' = zlen d /\
    (forall p, In p vbm -> blk d' (bp_block p) = bp_data p) /\
    (forall n, 0 <= n -> ~ In n (map bp_block vbm) -> blk d' n = blk d n).
Proof.
  induction vbm as [|bp vbm IH]; intros d W F N; cbn [Write].
  - exists d. split; [reflexivity|]. split; [reflexivity|]. split; [intros p [] | reflexivity].
  - inversion W as [|? ? [L B] W']; subst. inversion F as [|? ? [U I] F']; subst. cbn [map] in N. inversion N as [|? ? N1 N2]; subst.
    unfold is_u16 in U. unfold sbind. rewrite write_part by lia. unfold in_dev in I. replace (zlen d <? 512 * bp_block bp + 512) with false by lia.
    assert (zlen (upd d (512 * bp_block bp) (bp_data bp)) = zlen d) as Lu by (apply zlen_upd; lia).
    destruct (IH (upd d (512 * bp_block bp) (bp_data bp)) W') as (d' & E & L' & P & O).
    { eapply Forall_impl; [|exact F']. intros p [Up Ip]. split; [exact Up|]. unfold in_dev in *. lia. }
    { exact N2. }
    exists d'. split; [exact E|]. split; [lia|]. split.
    + intros p [<-|Hp]; [|apply P; exact Hp]. rewrite O by (try lia; exact N1). apply blk_upd_same; try lia; unfold in_dev; lia.
    + intros n Hn Hi. rewrite O by (try lia; intros H; apply Hi; right; exact H). apply blk_upd_other; try lia; [unfold in_dev; lia|].
      intros ->. apply Hi. left. reflexivity.
Qed.
Lemma Write_err vbm : forall d, vbm_wf vbm -> Forall (fun p => is_u16 (bp_block p)) vbm -> Exists (fun p => ~ in_dev d (bp_block p)) vbm ->
  exists d' e, Write vbm d = (d', Err e) /\ zlen d' = zlen d.
Proof.
  induction vbm as [|bp vbm IH]; intros d W F X; [inversion X|]. cbn [Write].
  inversion W as [|? ? [L B] W']; subst. inversion F as [|? ? U F']; subst. unfold is_u16 in U. unfold sbind. rewrite write_part by lia.
  destruct (Z.ltb_spec (zlen d) (512 * bp_block bp + 512)) as [H|H]; [eauto|].
  assert (zlen (upd d (512 * bp_block bp) (bp_data bp)) = zlen d) as Lu by (apply zlen_upd; lia).
  inversion X as [? ? X1|? ? X1]; subst; [exfalso; apply X1; unfold in_dev; lia|].
  destruct (IH (upd d (512 * bp_block bp) (bp_data bp)) W' F') as (d' & e & E & L').
  { apply Exists_exists in X1 as (p & Hp & Np). apply Exists_exists. exists p. split; [exact Hp|]. unfold in_dev in *. lia. }
  exists d', e. split; [exact E | lia].
Qed.
