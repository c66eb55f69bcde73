(** SdProofs.v -- C67: Standard Delivery disks. *)
From Verif Require Import GoBase GoLemmas TypesModel DiskModel DiskSpec DiskProofs DiskOpenProofs.
From Verif Require Import SupermonModel Dos3Model ProdosModel BasicModel BasicProofs CmdModel CmdSpec CmdProofs CmdStmtProofs SdSpec.
From Coq Require Import ZifyBool ZifyNat Permutation.
Ltac Zify.zify_post_hook ::= Z.div_mod_to_equations.
Local Opaque zrange zeros sub.

Lemma sd_order_all (P : Z -> Z -> Prop) :
  P 0 0 -> P 1 2 -> P 2 4 -> P 3 6 -> P 4 8 -> P 5 10 -> P 6 12 -> P 7 14 -> P 8 1 -> P 9 3 -> P 10 5 -> P 11 7 ->
  P 12 9 -> P 13 11 -> P 14 13 -> P 15 15 -> forall m, 0 <= m < 16 -> P m (znth 0 sd_order m).
Proof.
  intros. assert (H16 : m = 0 \/ m = 1 \/ m = 2 \/ m = 3 \/ m = 4 \/ m = 5 \/ m = 6 \/ m = 7 \/ m = 8 \/ m = 9 \/ m = 10 \/
    m = 11 \/ m = 12 \/ m = 13 \/ m = 14 \/ m = 15) by lia.
  destruct H16 as [->|[->|[->|[->|[->|[->|[->|[->|[->|[->|[->|[->|[->|[->|[->| ->]]]]]]]]]]]]]]]; assumption.
Qed.
Lemma sd_order_inj m m' : 0 <= m < 16 -> 0 <= m' < 16 -> znth 0 sd_order m = znth 0 sd_order m' -> m = m'.
Proof.
  (* the inverse table *)
  set (inv := [0; 8; 1; 9; 2; 10; 3; 11; 4; 12; 5; 13; 6; 14; 7; 15]).
  assert (H : forall x, 0 <= x < 16 -> znth 0 inv (znth 0 sd_order x) = x).
  { intros x Hx. apply (sd_order_all (fun a b => znth 0 inv b = a)); try reflexivity. exact Hx. }
  intros H1 H2 E. rewrite <- (H m H1), <- (H m' H2), E. reflexivity.
Qed.
Lemma sd_order_range m : 0 <= m < 16 -> 0 <= znth 0 sd_order m < 16.
Proof. apply (sd_order_all (fun _ b => 0 <= b < 16)); lia. Qed.

Definition sd_off (k : Z) : Z := offset (k / 16) (znth 0 sd_order (k mod 16)).
Lemma sd_off_range k : 0 <= k < 560 -> 0 <= sd_off k /\ sd_off k + 256 <= 143360 /\ 0 <= k / 16 < 35 /\
  0 <= znth 0 sd_order (k mod 16) < 16.
Proof.
  intros Hk. pose proof (sd_order_range (k mod 16) ltac:(lia)). unfold sd_off, offset.
  assert (0 <= k / 16 < 35) by lia. lia.
Qed.
Lemma sd_off_inj k k' : 0 <= k < 560 -> 0 <= k' < 560 -> sd_off k = sd_off k' -> k = k'.
Proof.
  intros Hk Hk' E. destruct (sd_off_range k Hk) as (_ & _ & _ & H1). destruct (sd_off_range k' Hk') as (_ & _ & _ & H2).
  apply offset_inj in E; [|exact H1|exact H2]. destruct E as [E1 E2].
  apply sd_order_inj in E2; lia.
Qed.
(** Every sector is the [k]-th of some [k]: not needed, but it shows the numbering covers the disk. *)

Lemma sd_write d k page : zlen d = 143360 -> 0 <= k < 560 -> zlen page = 256 ->
  exists d', WriteSector (k / 16) (znth 0 sd_order (k mod 16)) page d = (d', Ok tt) /\ zlen d' = 143360 /\
    sd_sector d' k = page /\ forall k', 0 <= k' < 560 -> k' <> k -> sd_sector d' k' = sd_sector d k'.
Proof.
  intros Hd Hk Hp. destruct (sd_off_range k Hk) as (H1 & H2 & H3 & H4). unfold sd_off in H1, H2.
  exists (upd d (offset (k / 16) (znth 0 sd_order (k mod 16))) page).
  split; [apply WriteSector_ok; [exact Hp|lia]|].
  split; [rewrite zlen_upd; lia|].
  split; [unfold sd_sector; apply sector_upd_same; lia|].
  intros k' Hk' Hne. unfold sd_sector. destruct (sd_off_range k' Hk') as (G1 & G2 & G3 & G4).
  apply sector_upd_other; try lia. intros E. apply Hne. symmetry. apply sd_off_inj; [exact Hk|exact Hk'|exact E].
Qed.

(** One step of the sector counter. *)
Lemma sd_step k : 0 <= k < 200 ->
  (let sector := u8 (znth 0 sd_order (k mod 16) + 2) in
   if FloppySectors <=? sector then
     let sector := u8 (FloppySectors + 1 - sector) in
     if sector =? 0 then
       let track := u8 (k / 16 + 1) in
       if FloppyTracks <=? track then None else Some (track, sector)
     else Some (k / 16, sector)
   else Some (k / 16, sector))
  = Some ((k + 1) / 16, znth 0 sd_order ((k + 1) mod 16)).
Proof.
  intros Hk. assert (Hm : 0 <= k mod 16 < 16) by lia.
  assert (Hq : 0 <= k / 16 < 13) by lia.
  assert (Ek : k = 16 * (k / 16) + k mod 16) by lia.
  remember (k / 16) as q eqn:Eq. remember (k mod 16) as m eqn:Em. clear Eq Em. subst k.
  assert (Hn : (m < 15 /\ (16 * q + m + 1) / 16 = q /\ (16 * q + m + 1) mod 16 = m + 1) \/
               (m = 15 /\ (16 * q + m + 1) / 16 = q + 1 /\ (16 * q + m + 1) mod 16 = 0)) by lia.
  destruct Hn as [(H1 & -> & ->)|(-> & -> & ->)].
  - clear Hk Hq. revert H1.
    apply (sd_order_all (fun m b => m < 15 -> (let sector := u8 (b + 2) in
   if FloppySectors <=? sector then
     let sector := u8 (FloppySectors + 1 - sector) in
     if sector =? 0 then
       let track := u8 (q + 1) in
       if FloppyTracks <=? track then None else Some (track, sector)
     else Some (q, sector)
   else Some (q, sector)) = Some (q, znth 0 sd_order (m + 1)))); try (intros _; reflexivity); [lia|exact Hm].
  - change (znth 0 sd_order 15) with 15. change (znth 0 sd_order 0) with 0. cbv zeta.
    change (u8 (15 + 2)) with 17. change (FloppySectors <=? 17) with true. change (u8 (FloppySectors + 1 - 17)) with 0. cbv beta iota.
    change (0 =? 0) with true. cbv iota. unfold u8, FloppyTracks.
    replace ((q + 1) mod 256) with (q + 1) by lia. replace (35 <=? q + 1) with false by lia. reflexivity.
Qed.

Lemma sd_loop_ok : forall (m : nat) k contents address loader d,
  0 <= k -> k + Z.of_nat m < 200 -> zlen contents = 256 * (k + Z.of_nat m) -> zlen d = 143360 ->
  0 <= address -> address mod 256 = 0 -> address + zlen contents <= 65536 ->
  exists d', sd_loop (zseq k m) contents address (k / 16) (znth 0 sd_order (k mod 16)) loader d
    = Ok (loader ++ map (fun i => address / 256 + i) (zseq k m), d') /\ zlen d' = 143360 /\
    (forall i, k <= i < k + Z.of_nat m -> sd_sector d' (i + 1) = sub contents (256 * i) (256 * i + 256)) /\
    (forall j, 0 <= j < 560 -> ~ (k < j <= k + Z.of_nat m) -> sd_sector d' j = sd_sector d j).
Proof.
  induction m as [|m IH]; intros k contents address loader d Hk Hkm Hc Hd Ha Haa Hac.
  - exists d. cbn [zseq sd_loop map]. rewrite app_nil_r. split; [reflexivity|]. split; [exact Hd|]. split; [lia|]. intros; reflexivity.
  - cbn [zseq sd_loop]. cbv zeta.
    pose proof (sd_step k ltac:(lia)) as Hs. cbv zeta in Hs. rewrite Hs. clear Hs.
    rewrite slice_ok by lia. cbn [rbind].
    destruct (sd_write d (k + 1) (sub contents (256 * k) (256 * k + 256))) as (d1 & E & Hd1 & H1 & H2);
      [exact Hd|lia|rewrite zlen_sub; lia|].
    rewrite E.
    destruct (IH (k + 1) contents address (loader ++ [u8 ((address + 256 * k) / 256)]) d1) as (d' & E' & Hd' & G1 & G2); try lia.
    exists d'. rewrite E'. split.
    + cbn [map]. rewrite <- app_assoc. cbn [app]. replace (u8 ((address + 256 * k) / 256)) with (address / 256 + k); [reflexivity|].
      unfold u8. lia.
    + split; [exact Hd'|]. split.
      * intros i Hi. destruct (Z.eq_dec i k) as [->|Hne]; [|apply G1; lia].
        rewrite G2 by lia. exact H1.
      * intros j Hj Hn. rewrite G2 by lia. apply H2; lia.
Qed.

Lemma padTo256_len l : zlen (padTo256 l) = 256 * ((zlen l + 255) / 256).
Proof. unfold padTo256. rewrite zlen_app, zlen_zeros by lia. pose proof (zlen_nonneg l). lia. Qed.
Lemma padTo256_nth l i : 0 <= i -> znth 0 (padTo256 l) i = znth 0 l i.
Proof.
  intros Hi. unfold padTo256. destruct (Z.ltb_spec i (zlen l)).
  - rewrite znth_app by lia. replace (i <? zlen l) with true by lia. reflexivity.
  - rewrite znth_app by lia. replace (i <? zlen l) with false by lia. rewrite znth_zeros by lia. symmetry. apply znth_overflow. lia.
Qed.
Lemma sd_boot_code : sd_code = sd_boot.
Proof. reflexivity. Qed.
Lemma raw_reordered d o raw : zlen d = 143360 -> (o = s2b "do" \/ o = s2b "po") ->
  Swizzle d (orNil (PhysicalToLogicalByName o)) = Ok raw -> reordered d (s2b "raw") o raw.
Proof.
  intros Hd Ho E. apply reorder2_iff. unfold reorder2.
  assert (Er : Swizzle d (orNil (LogicalToPhysicalByName (s2b "raw"))) = Ok d).
  { destruct (tables_ok (s2b "raw")) as (l & p & E1 & _ & I & P & _); [eexists; constructor|].
    rewrite E1. cbn [orNil]. apply Swizzle_iff. split; [exact Hd|]. split; [exact P|]. split; [exact Hd|].
    intros t s Ht Hs. inversion I; subst; try discriminate. f_equal.
    revert Hs. generalize s. clear. intros s Hs.
    assert (H16 : s = 0 \/ s = 1 \/ s = 2 \/ s = 3 \/ s = 4 \/ s = 5 \/ s = 6 \/ s = 7 \/ s = 8 \/ s = 9 \/ s = 10 \/
      s = 11 \/ s = 12 \/ s = 13 \/ s = 14 \/ s = 15) by lia.
    destruct H16 as [->|[->|[->|[->|[->|[->|[->|[->|[->|[->|[->|[->|[->|[->|[->| ->]]]]]]]]]]]]]]]; reflexivity. }
  rewrite Er. exact E.
Qed.
Lemma sd_order_value order name o : order_flag order -> sd_image_order order name o ->
  (if beq order DiskOrderAuto then OrderFromFilename name DiskOrderDO else order) = o /\ (o = s2b "do" \/ o = s2b "po").
Proof.
  intros Hf H. destruct H as [Hn|o Ha Hn|Ha Hn].
  - change DiskOrderAuto with (s2b "auto"). rewrite (beq_false _ _ Hn). split; [reflexivity|].
    destruct Hf; [contradiction Hn; reflexivity|left; reflexivity|right; reflexivity].
  - subst order. cbn [beq]. change (beq (s2b "auto") DiskOrderAuto) with true. cbv iota.
    inversion Hn as [H|H|]; subst.
    + rewrite (OrderFromFilename_do _ _ H). split; [reflexivity|left; reflexivity].
    + rewrite (OrderFromFilename_po _ _ H). split; [reflexivity|right; reflexivity].
  - subst order. change (beq (s2b "auto") DiskOrderAuto) with true. cbv iota. inversion Hn as [| |H1 H2 H3].
    rewrite (OrderFromFilename_other _ _ H1 H2 H3). split; [reflexivity|left; reflexivity].
Qed.
Lemma sd_order_exists order name : order_flag order -> exists o, sd_image_order order name o.
Proof.
  intros Hf. destruct Hf.
  - destruct (name_order_ex name) as [[o|] H]; eexists; [eapply so_name|eapply so_default]; try reflexivity; exact H.
  - eexists. apply so_flag. discriminate.
  - eexists. apply so_flag. discriminate.
Qed.

Lemma sd_image_ok order name c address start0 o : order_flag order -> sd_image_order order name o ->
  0 <= address < 65536 -> 0 <= start0 < 65536 -> sd_accepts c address (sd_start address start0) ->
  exists raw d, sd_image order name c address start0 = Ok raw /\ sd_disk c address (sd_start address start0) d /\
    reordered d (s2b "raw") o raw.
Proof.
  intros Hf Ho Ha Hs0 (H1 & H2 & H3 & H4). unfold sd_image. cbv zeta.
  change (if start0 =? 0xFFFF then address else start0) with (sd_start address start0).
  remember (sd_start address start0) as start eqn:Es.
  replace (address mod 256 =? 0) with true by lia. cbn [negb].
  replace (start <? address) with false by lia. replace (address + zlen c <=? start) with false by lia.
  replace (49152 <? start + zlen c) with false by lia.
  assert (Hl : zlen (sd_code ++ [u8 start; u8 (start / 256)]) = 79) by reflexivity. rewrite Hl.
  unfold sd_pages in H4. replace (256 <? 79 + (zlen c + 255) / 256 + 1) with false by lia.
  rewrite padTo256_len. replace (256 * ((zlen c + 255) / 256) / 256) with ((zlen c + 255) / 256) by lia.
  remember ((zlen c + 255) / 256) as n eqn:En.
  assert (Hc0 : 0 <= zlen c) by apply zlen_nonneg.
  destruct (sd_loop_ok (Z.to_nat n) 0 (padTo256 c) address (sd_code ++ [u8 start; u8 (start / 256)]) (zeros FloppyDiskBytes))
    as (d1 & E1 & Hd1 & G1 & G2); try lia.
  { rewrite padTo256_len, <- En. lia. }
  { apply zlen_zeros. unfold FloppyDiskBytes. lia. }
  { rewrite padTo256_len, <- En. lia. }
  change (zseq 0 (Z.to_nat n)) with (zrange n) in E1. change (0 / 16) with 0 in E1. change (znth 0 sd_order (0 mod 16)) with 0 in E1.
  rewrite E1.
  remember (((sd_code ++ [u8 start; u8 (start / 256)]) ++ map (fun i => address / 256 + i) (zrange n)) ++ [192]) as ld eqn:Eld.
  assert (Hld : zlen ld = 80 + n).
  { rewrite Eld. rewrite !zlen_app, zlen_map, zlen_zrange by lia. rewrite zlen_app in Hl. rewrite Hl. cbn [zlen]. change (zlen [192]) with 1. lia. }
  destruct (sd_write d1 0 (ld ++ zeros (256 - zlen ld))) as (d & E & Hd & K1 & K2);
    [exact Hd1|lia|rewrite zlen_app, zlen_zeros; lia|].
  change (0 / 16) with 0 in E. change (znth 0 sd_order (0 mod 16)) with 0 in E. rewrite E.
  destruct (sd_order_value order name o Hf Ho) as [-> Hdp].
  destruct (Swizzle_ok d (orNil (PhysicalToLogicalByName o))) as (raw & Er & _).
  { exact Hd. }
  { destruct (tables_ok o) as (l & p & _ & Ep & _ & _ & P & _); [destruct Hdp as [->| ->]; eexists; constructor|].
    rewrite Ep. exact P. }
  exists raw, d. split; [exact Er|]. split; [|apply (raw_reordered d o raw Hd Hdp Er)].
  split; [exact Hd|]. unfold sd_pages. rewrite <- En. split; [|split].
  - exists (zeros (256 - zlen ld)). split.
    + rewrite K1, Eld. rewrite sd_boot_code. rewrite <- !app_assoc. do 2 f_equal.
      unfold u8. replace (start / 256 mod 256) with (start / 256) by (unfold sd_start in Es; destruct (start0 =? 65535); lia).
      reflexivity.
    + intros x Hx. Local Transparent zeros. unfold zeros in Hx. Local Opaque zeros. apply repeat_spec in Hx. exact Hx.
  - intros i j Hi Hj. rewrite K2 by lia. rewrite G1 by lia.
    rewrite znth_sub by lia. rewrite padTo256_nth by lia. reflexivity.
  - intros k j Hk Hj. rewrite K2 by lia. rewrite G2 by lia.
    unfold sd_sector, sector. destruct (sd_off_range k ltac:(lia)) as (L1 & L2 & L3 & L4). unfold sd_off in L1, L2.
    rewrite znth_sub by lia. apply znth_zeros. lia.
Qed.
Lemma sd_image_err order name c address start0 : 0 <= address < 65536 ->
  ~ sd_accepts c address (sd_start address start0) -> exists e, sd_image order name c address start0 = Err e.
Proof.
  intros Ha H. unfold sd_image. cbv zeta.
  change (if start0 =? 0xFFFF then address else start0) with (sd_start address start0).
  remember (sd_start address start0) as start eqn:Es.
  destruct (Z.eqb_spec (address mod 256) 0) as [H1|H1]; cbn [negb]; [|eexists; reflexivity].
  destruct (Z.ltb_spec start address) as [H2|H2]; [eexists; reflexivity|].
  destruct (Z.leb_spec (address + zlen c) start) as [H3|H3]; [eexists; reflexivity|].
  destruct (Z.ltb_spec 49152 (start + zlen c)) as [H4|H4]; [eexists; reflexivity|].
  assert (Hl : zlen (sd_code ++ [u8 start; u8 (start / 256)]) = 79) by reflexivity. rewrite Hl.
  destruct (Z.ltb_spec 256 (79 + (zlen c + 255) / 256 + 1)) as [H5|H5]; [eexists; reflexivity|].
  exfalso. apply H. split; [exact H1|]. split; [lia|]. split; [lia|]. unfold sd_pages. lia.
Qed.

Lemma C67_lemma : forall order name c address start0 o,
  order_flag order -> sd_image_order order name o -> 0 <= address < 65536 -> 0 <= start0 < 65536 ->
  ((exists raw, sd_image order name c address start0 = Ok raw) <-> sd_accepts c address (sd_start address start0)) /\
  ((exists e, sd_image order name c address start0 = Err e) <-> ~ sd_accepts c address (sd_start address start0)) /\
  (forall raw, sd_image order name c address start0 = Ok raw ->
     exists d, sd_disk c address (sd_start address start0) d /\ reordered d (s2b "raw") o raw) /\
  (sd_accepts c address (sd_start address start0) -> forall i, 0 <= i < sd_pages c -> 0 <= address / 256 + i < 0xC0).
Proof.
  intros order name c address start0 o Hf Ho Ha Hs.
  assert (Hdec : sd_accepts c address (sd_start address start0) \/ ~ sd_accepts c address (sd_start address start0)).
  { unfold sd_accepts. remember (sd_start address start0) as start. pose proof (zlen_nonneg c).
    destruct (Z.eq_dec (address mod 256) 0); [|right; lia]. destruct (Z_le_dec address start); [|right; lia].
    destruct (Z_lt_dec start (address + zlen c)); [|right; lia]. destruct (Z_le_dec (start + zlen c) 49152); [|right; lia].
    destruct (Z_le_dec (sd_pages c) 176); [left; lia|right; lia]. }
  assert (Hok := fun H => sd_image_ok order name c address start0 o Hf Ho Ha Hs H).
  assert (Herr := sd_image_err order name c address start0 Ha).
  split; [|split; [|split]].
  - split.
    + intros [raw E]. destruct Hdec as [H|H]; [exact H|]. destruct (Herr H) as [e E']. congruence.
    + intros H. destruct (Hok H) as (raw & d & E & _). exists raw. exact E.
  - split.
    + intros [e E] H. destruct (Hok H) as (raw & d & E' & _). congruence.
    + exact Herr.
  - intros raw E. destruct Hdec as [H|H]; [|destruct (Herr H) as [e E']; congruence].
    destruct (Hok H) as (raw' & d & E' & H1 & H2). exists d. rewrite E in E'. injection E' as <-. split; [exact H1|exact H2].
  - intros (H1 & H2 & H3 & H4) i Hi. unfold sd_pages in Hi. lia.
Qed.
Lemma C67_run_lemma : forall order img bin c address start0 w,
  input w bin c ->
  (forall w', run (SDCmd_Run order img bin address start0) w = (w', Ok tt) ->
     exists raw, sd_image order img c address start0 = Ok raw /\ output w w' img raw) /\
  (forall raw, sd_image order img c address start0 = Ok raw -> w_room w = None -> w_outroom w = None ->
     can_output w img true -> exists w', run (SDCmd_Run order img bin address start0) w = (w', Ok tt)) /\
  (forall e, sd_image order img c address start0 = Err e ->
     exists w', run (SDCmd_Run order img bin address start0) w = (w', Err e) /\ same_files w w').
Proof.
  intros order img bin c address start0 w Hi.
  destruct (run_contents_ok w bin c Hi) as (w1 & E & Hs & Ho & Hr & Hor).
  assert (Er : run (SDCmd_Run order img bin address start0) w =
    match sd_image order img c address start0 with
    | Ok raw => run (WriteOutput img raw true) w1 | Err e => (w1, Err e) | Panic => (w1, Panic) end).
  { unfold SDCmd_Run. rewrite run_pbind, E, run_pbind. unfold plift. cbn [run].
    destruct (sd_image order img c address start0); reflexivity. }
  rewrite Er. split; [|split].
  - intros w' H. destruct (sd_image order img c address start0) as [raw|e|]; try discriminate.
    exists raw. split; [reflexivity|]. apply (output_files _ w1); [exact Hs|exact Ho|]. exact (run_output _ _ _ _ _ H).
  - intros raw E1 Hr0 Ho0 Hc. rewrite E1. apply run_output_ok; [congruence|congruence|].
    destruct Hc as [Hc|(Hc1 & Hc2 & Hc3)]; [left; exact Hc|right]. split; [exact Hc1|].
    unfold writable, file_exists in *. rewrite Hs. split; [exact Hc2|left; reflexivity].
  - intros e E1. rewrite E1. exists w1. split; [reflexivity|exact Hs].
Qed.
