(** SdMapProofs.v -- which Standard Delivery disks are taken for NakedOS disks. *)
From Coq Require Import ZifyBool ZifyNat.
From Verif Require Import GoBase GoLemmas TypesModel DiskModel DiskSpec DiskProofs.
From Verif Require Import SupermonModel SupermonSpec SupermonTableSpec SupermonStoreSpec SupermonProofs SupermonOpProofs SupermonFinalProofs.
From Verif Require BackupExProofs.
From Verif Require Import ProdosModel CmdModel CmdSpec CmdStmtProofs MainModel NakedCmdSpec NakedCmdProofs DetectSpec DetectProofs SdSpec SdProofs SdSeenSpec SdSeenProofs SdSeenExProofs SdMapSpec.
Ltac Zify.zify_post_hook ::= Z.div_mod_to_equations.
Local Opaque zrange zeros sub.

Lemma cross_map l o o' raw d1 : floppy_order o -> floppy_order o' -> reordered l (s2b "po") o raw -> reordered raw o' (s2b "raw") d1 ->
  (o' = o -> sector d1 0 9 = sector l 0 12 /\ sector d1 0 10 = sector l 0 5 /\ sector d1 0 11 = sector l 0 13) /\
  (o' <> o -> sector d1 0 9 = sector l 0 3 /\ sector d1 0 10 = sector l 0 10 /\ sector d1 0 11 = sector l 0 2).
Proof.
  intros Ho Ho' (_ & _ & lp & lo & Ip & Io & H) (_ & _ & lo' & lr & Io' & Ir & H').
  inversion Ir; subst. inversion Ip; subst.
  destruct Ho as [-> | ->]; inversion Io; subst; destruct Ho' as [-> | ->]; inversion Io'; subst.
  - split; [intros _|intros X; contradiction X; reflexivity]. rewrite (H' 0 3 9), (H' 0 10 10), (H' 0 2 11) by (lia || reflexivity). split; [|split]; apply H; lia || reflexivity.
  - split; [discriminate|intros _]. rewrite (H' 0 12 9), (H' 0 5 10), (H' 0 13 11) by (lia || reflexivity). split; [|split]; apply H; lia || reflexivity.
  - split; [discriminate|intros _]. rewrite (H' 0 3 9), (H' 0 10 10), (H' 0 2 11) by (lia || reflexivity). split; [|split]; apply H; lia || reflexivity.
  - split; [intros _|intros X; contradiction X; reflexivity]. rewrite (H' 0 12 9), (H' 0 5 10), (H' 0 13 11) by (lia || reflexivity). split; [|split]; apply H; lia || reflexivity.
Qed.

Section Map.
  Context (order name c : bytes) (address start0 : Z) (raw o : bytes) (Hf : order_flag order) (Ho : sd_image_order order name o)
          (Ha : 0 <= address < 65536) (Hs : 0 <= start0 < 65536) (HR : sd_image order name c address start0 = Ok raw).
  Notation start := (sd_start address start0).
  Notation line := (sd_line c address start).
  Lemma line_page i : 0 <= i < 15 -> sector line 0 (i + 1) = sd_page c i.
  Proof.
    intros Hi. pose proof (seen_accepts order name c address start0 raw o Hf Ho Ha Hs HR) as HA.
    pose proof (sd_first_len c address start HA) as L1. pose proof (sd_line_len c address start HA) as L2.
    assert (L3 : zlen (c ++ zeros (143104 - zlen c)) = 143104) by (unfold sd_line in L2; rewrite zlen_app in L2; lia).
    unfold sd_page, sector, offset. apply (znth_ext 0); [rewrite !zlen_sub by lia; lia|].
    intros j Hj. rewrite zlen_sub in Hj by lia. rewrite !znth_sub by lia. unfold sd_line. rewrite znth_app2 by lia. f_equal. lia.
  Qed.
  Lemma map_seen o' d : floppy_order o' -> reordered raw o' (s2b "raw") d -> (o' = o -> stored_map d = sd_own_map c) /\ (o' <> o -> stored_map d = sd_other_map c).
  Proof.
    intros Ho' R. destruct (cross_map _ _ _ _ _ (seen_order order name o Hf Ho) Ho' (seen_line order name c address start0 raw o Hf Ho Ha Hs HR) R) as [H1 H2]. split; intros E.
    - destruct (H1 E) as (A & B & C). rewrite (map_from d _ _ _ (proj1 (proj2 R)) A B C). pose proof (line_page 11 ltac:(lia)) as P1. pose proof (line_page 4 ltac:(lia)) as P2. pose proof (line_page 12 ltac:(lia)) as P3. cbn [Z.add Pos.add Pos.succ Pos.add_carry] in P1, P2, P3. rewrite P1, P2, P3. reflexivity.
    - destruct (H2 E) as (A & B & C). rewrite (map_from d _ _ _ (proj1 (proj2 R)) A B C). pose proof (line_page 2 ltac:(lia)) as P1. pose proof (line_page 9 ltac:(lia)) as P2. pose proof (line_page 1 ltac:(lia)) as P3. cbn [Z.add Pos.add Pos.succ Pos.add_carry] in P1, P2, P3. rewrite P1, P2, P3. reflexivity.
  Qed.
End Map.
Lemma sd_edits_exact : forall (iter : list (Z * Subdirectory) -> list (Z * Subdirectory)) fuel order name c address start0 raw,
  order_flag order -> 0 <= address < 65536 -> 0 <= start0 < 65536 -> sd_image order name c address start0 = Ok raw ->
  ~ verified (sd_own_map c) -> ~ verified (sd_other_map c) ->
  forall img flag system w ft ow addr tgt src force n a s, input w img raw ->
  leaves_alone (DeleteCmd_Run iter fuel flag system force img n) w /\
  leaves_alone (PutCmd_Run iter fuel flag system ft ow addr img tgt src) w /\
  leaves_alone (MkHelloCmd_Run iter fuel flag img n a s) w.
Proof.
  intros iter fuel order name c address start0 raw Hf Ha Hs HR V1 V2 img flag system w ft ow addr tgt src force n a s Hin.
  destruct (sd_order_exists order name Hf) as [o Ho].
  apply (not_naked_edits iter fuel img flag system raw); [|exact Hin]. intros sys x o' E.
  destruct (naked_opened iter fuel _ _ _ _ _ _ E) as (_ & _ & _ & _ & _ & [R N] & _). destruct (open_order iter fuel _ _ _ _ _ _ E) as (os & Hc & Hin').
  assert (Ho' : floppy_order o') by (destruct Hc; repeat (destruct Hin' as [<-|Hin']; [unfold floppy_order; auto|]); destruct Hin').
  destruct (map_seen order name c address start0 raw o Hf Ho Ha Hs HR o' _ Ho' R) as [M1 M2]. pose proof (fl_ver _ _ N) as V.
  destruct (beq o' o) eqn:B; [apply beq_eq in B; rewrite (M1 B) in V; exact (V1 V)|apply beq_neq in B; rewrite (M2 B) in V; exact (V2 V)].
Qed.
Lemma sd_naked_seen : forall order name o c address start0 raw,
  order_flag order -> sd_image_order order name o -> bytes_ok c -> 0 <= address < 65536 -> 0 <= start0 < 65536 -> sd_image order name c address start0 = Ok raw ->
  forall img flag o', first_order img flag o' ->
  (o' = o -> verified (sd_own_map c)) -> (o' <> o -> verified (sd_other_map c)) ->
  exists d, seen_as img flag raw (s2b "nakedos") d o' /\ (o' = o -> stored_map d = sd_own_map c) /\ (o' <> o -> stored_map d = sd_other_map c).
Proof.
  intros order name o c address start0 raw Hf Ho Hc Ha Hs HR img flag o' [rest HF] V1 V2.
  pose proof (seen_raw_len order name c address start0 raw o Hf Ho Ha Hs HR) as L.
  assert (Ho' : floppy_order o') by (remember (o' :: rest) as os eqn:E; destruct HF; injection E as <- _; unfold floppy_order; auto).
  assert (Io' : exists l, interleave o' l) by (destruct Ho' as [-> | ->]; eexists; constructor).
  destruct (reordered_ex raw o' (s2b "do") L Io' (ex_intro _ _ il_do)) as [d0 R0].
  destruct (reordered_ex raw o' (s2b "raw") L Io' (ex_intro _ _ il_raw)) as [d R]. exists d.
  destruct (map_seen order name c address start0 raw o Hf Ho Ha Hs HR o' _ Ho' R) as [M1 M2]. split; [|split; assumption].
  apply (sa_floppy _ _ _ [] o' rest); [exact L|exact (seen_bytes order name c address start0 raw o Hf Ho Ha Hs HR Hc)|exact HF|constructor|].
  apply (ra_naked _ _ d0 d); [exact R0|exact (seen_not_dos order name c address start0 raw o Hf Ho Ha Hs HR _ _ R0)|exact R|].
  split; [exact (proj1 (proj2 R))| |reflexivity].
  destruct (beq o' o) eqn:B; [apply beq_eq in B; rewrite (M1 B); exact (V1 B)|apply beq_neq in B; rewrite (M2 B); exact (V2 B)].
Qed.
(** Up to nine pages neither part can be a map. *)
Lemma short_no_map c : zlen c <= 2304 -> ~ verified (sd_own_map c) /\ ~ verified (sd_other_map c).
Proof.
  intros H. assert (Z9 : forall i, 9 <= i < 15 -> forall j, 0 <= j < 256 -> znth 0 (sd_page c i) j = 0).
  { intros i Hi j Hj. unfold sd_page. pose proof (zlen_nonneg c). rewrite znth_sub by lia. rewrite znth_app2 by lia. apply znth_zeros. lia. }
  assert (P : forall i, 0 <= i < 15 -> zlen (sd_page c i) = 256).
  { intros i Hi. unfold sd_page. pose proof (zlen_nonneg c). rewrite zlen_sub; rewrite ?zlen_app, ?zlen_zeros; lia. }
  split; intros V.
  - apply (v_leg _ V 304); [lia|]. unfold sd_own_map. rewrite znth_app2; [|lia|rewrite zlen_sub by (rewrite ?P; lia); lia]. rewrite zlen_sub by (rewrite ?P; lia). rewrite znth_app2; rewrite ?P by lia; try lia. apply Z9; lia.
  - apply (v_leg _ V 48); [lia|]. unfold sd_other_map. rewrite znth_app2; [|lia|rewrite zlen_sub by (rewrite ?P; lia); lia]. rewrite zlen_sub by (rewrite ?P; lia). rewrite znth_app1; [|rewrite P by lia; lia]. apply Z9; lia.
Qed.
(** A binary of thirteen pages that cannot be taken for a map, and one that can. *)
Lemma plain_maps : znth 0 (sd_own_map (repeat 7 3328)) 0 = 7 /\ znth 0 (sd_other_map (repeat 7 3328)) 0 = 7.
Proof. split; vm_compute; reflexivity. Qed.
Lemma lure_map : sd_own_map lure = repeat 254 12 ++ repeat 255 548.
Proof. vm_compute. reflexivity. Qed.
Lemma lure_bytes : bytes_ok lure.
Proof. unfold lure. repeat (apply Forall_app; split); apply Forall_forall; intros x Hx; apply repeat_spec in Hx; subst x; unfold is_byte; lia. Qed.
Lemma map_examples : ~ verified (sd_own_map (repeat 7 3328)) /\ ~ verified (sd_other_map (repeat 7 3328)) /\ (exists raw, sd_image (s2b "auto") (s2b "x.do") (repeat 7 3328) 0x2000 0xFFFF = Ok raw) /\
  verified (sd_own_map lure) /\ bytes_ok lure /\ sd_image_order (s2b "auto") (s2b "x.do") (s2b "do").
Proof.
  destruct plain_maps as [E1 E2].
  assert (Ho : sd_image_order (s2b "auto") (s2b "x.do") (s2b "do")).
  { destruct (sd_order_exists (s2b "auto") (s2b "x.do") flag_auto) as [o Ho]. destruct (sd_order_value _ _ _ flag_auto Ho) as [E _].
    assert (o = s2b "do") as <- by (rewrite <- E; vm_compute; reflexivity). exact Ho. }
  split; [|split; [|split; [|split; [|split]]]].
  - intros V. pose proof (v_res _ V 0 ltac:(lia)) as X. rewrite E1 in X. discriminate X.
  - intros V. pose proof (v_res _ V 0 ltac:(lia)) as X. rewrite E2 in X. discriminate X.
  - destruct (C67_lemma (s2b "auto") (s2b "x.do") (repeat 7 3328) 0x2000 0xFFFF (s2b "do") flag_auto Ho ltac:(lia) ltac:(lia)) as (H1 & _). apply H1.
    unfold sd_accepts, sd_pages, sd_start. assert (zlen (repeat 7 3328) = 3328) as -> by (vm_compute; reflexivity). cbn [Z.eqb Pos.eqb]. vm_compute. repeat split; discriminate.
  - rewrite lure_map. change (repeat 254 12 ++ repeat 255 548) with ex_map. exact (fl_ver _ _ BackupExProofs.blank_floppy).
  - exact lure_bytes.
  - exact Ho.
Qed.
