(** SdSeenProofs.v -- Standard Delivery disks and the other commands. *)
From Coq Require Import ZifyBool ZifyNat Permutation.
From Verif Require Import GoBase GoLemmas TypesModel DiskModel DiskSpec DiskProofs.
From Verif Require Import SupermonModel SupermonSpec ProdosModel CmdModel CmdSpec CmdProofs CmdStmtProofs MainModel NakedCmdSpec NakedCmdProofs NakedOpenProofs DetectSpec DetectProofs PrintProofs ImageProofs StatusProofs SdSpec SdProofs SdSeenSpec.
From Verif Require ProdosSpec ImageSpec.
Ltac Zify.zify_post_hook ::= Z.div_mod_to_equations.
Lemma bytes_zeros n : bytes_ok (zeros n).
Proof. apply Forall_forall. intros x Hx. apply repeat_spec in Hx. subst x. unfold is_byte. lia. Qed.
Local Opaque zrange zeros sub.

Lemma znth_app1 {A} (dd : A) a b i : 0 <= i < zlen a -> znth dd (a ++ b) i = znth dd a i.
Proof. intros H. rewrite znth_app by lia. replace (i <? zlen a) with true by lia. reflexivity. Qed.
Lemma znth_app2 {A} (dd : A) a b i : 0 <= i -> zlen a <= i -> znth dd (a ++ b) i = znth dd b (i - zlen a).
Proof. intros H0 H. rewrite znth_app by lia. replace (i <? zlen a) with false by lia. reflexivity. Qed.
Lemma interleave_perm o l : interleave o l -> Permutation l (zrange 16).
Proof.
  intros H. destruct (tables_ok o (ex_intro _ _ H)) as (l' & p & _ & _ & H' & P & _). rewrite (interleave_fun _ _ _ H H'). exact P.
Qed.
(** Two orderings of one image are orderings of each other. *)
Lemma reordered_via x a b c y z : reordered x a b y -> reordered x a c z -> reordered y b c z.
Proof.
  intros (Lx & Ly & la & lb & Ia & Ib & H) (_ & Lz & la' & lc & Ia' & Ic & H'). pose proof (interleave_fun _ _ _ Ia Ia') as E. subst la'.
  split; [exact Ly|]. split; [exact Lz|]. exists lb, lc. split; [exact Ib|]. split; [exact Ic|]. intros t s s' Ht Hs Hs' E.
  destruct (perm_surj la (znth 0 lb s) (interleave_perm _ _ Ia) (perm_range _ _ (interleave_perm _ _ Ib) Hs)) as (q & Hq & Eq).
  rewrite (H' t q s' Ht Hq Hs') by congruence. symmetry. apply (H t q s Ht Hq Hs Eq).
Qed.

Section Line.
  Context (c : bytes) (address start : Z) (HA : sd_accepts c address start) (Hadd : 0 <= address) .
  Notation line := (sd_line c address start).
  Lemma sd_sizes : zlen c <= 256 * sd_pages c /\ 256 * sd_pages c < zlen c + 256 /\ 0 <= sd_pages c <= 176 /\ 0 < zlen c.
  Proof. destruct HA as (H1 & H2 & H3 & H4). pose proof (zlen_nonneg c). unfold sd_pages in *. lia. Qed.
  Lemma sd_first_len : zlen (sd_first c address start) = 256.
  Proof.
    pose proof sd_sizes as Z. unfold sd_first. cbv zeta.
    rewrite zlen_app. match goal with |- context [zeros (256 - zlen ?x)] => assert (zlen x = 80 + sd_pages c) as E end.
    { rewrite !zlen_app, zlen_map, zlen_zrange by lia. change (zlen sd_boot) with 77. change (zlen [start mod 256; start / 256]) with 2. change (zlen [192]) with 1. lia. }
    rewrite E, zlen_zeros by lia. lia.
  Qed.
  Lemma sd_line_len : zlen line = 143360.
  Proof. pose proof sd_sizes as Z. unfold sd_line. rewrite !zlen_app, sd_first_len, zlen_zeros by lia. lia. Qed.
  Lemma line_after i : 256 + zlen c <= i -> znth 0 line i = 0.
  Proof.
    intros Hi. pose proof sd_sizes as Z. unfold sd_line. rewrite znth_app2 by (rewrite ?sd_first_len; lia). rewrite sd_first_len, znth_app2 by lia.
    destruct (Z_lt_ge_dec (i - 256 - zlen c) (143104 - zlen c)) as [H|H]; [apply znth_zeros; lia|apply znth_overflow; rewrite zlen_zeros by lia; lia].
  Qed.
  Lemma line_binary i : 0 <= i -> 256 * i < 143104 -> forall j, 0 <= j < 256 -> znth 0 line (256 * (i + 1) + j) = znth 0 c (256 * i + j).
  Proof.
    intros Hi Hi2 j Hj. pose proof sd_sizes as Z. unfold sd_line. rewrite znth_app2 by (rewrite ?sd_first_len; lia). rewrite sd_first_len.
    replace (256 * (i + 1) + j - 256) with (256 * i + j) by lia. destruct (Z_lt_ge_dec (256 * i + j) (zlen c)) as [H|H]; [apply znth_app1; lia|].
    rewrite znth_app2 by lia. rewrite (znth_overflow 0 c) by lia. apply znth_zeros. lia.
  Qed.
  Lemma line_sector t s : 0 <= t < 35 -> 0 <= s < 16 -> zlen (sector line t s) = 256 /\ forall j, 0 <= j < 256 -> znth 0 (sector line t s) j = znth 0 line (256 * (16 * t + s) + j).
  Proof.
    intros Ht Hs. pose proof sd_line_len as L. split; [apply zlen_sector; unfold offset; lia|]. intros j Hj.
    unfold sector. rewrite znth_sub by (unfold offset; lia). unfold offset. f_equal. lia.
  Qed.
  Lemma line_zero t s : 0 <= t < 35 -> 0 <= s < 16 -> sd_pages c < 16 * t + s -> sector line t s = zeros 256.
  Proof.
    intros Ht Hs H. pose proof sd_sizes as Z. destruct (line_sector t s Ht Hs) as [E1 E2].
    apply (znth_ext 0); [rewrite E1, zlen_zeros by lia; reflexivity|]. intros j Hj. rewrite E1 in Hj. rewrite E2 by lia. rewrite znth_zeros by lia. apply line_after. lia.
  Qed.
  Lemma first_shape d : sd_disk c address start d -> sd_sector d 0 = sd_first c address start.
  Proof.
    intros (Ld & (tail & E & Hz) & _). unfold sd_first. cbv zeta. pose proof sd_sizes as Z.
    assert (Ls : zlen (sd_sector d 0) = 256) by (unfold sd_sector; apply zlen_sector; cbn; unfold offset; lia).
    rewrite E in Ls |- *. rewrite <- !app_assoc.
    assert (Lt : zlen tail = 176 - sd_pages c).
    { rewrite !zlen_app, zlen_map, zlen_zrange in Ls by lia. change (zlen sd_boot) with 77 in Ls. change (zlen [start mod 256; start / 256]) with 2 in Ls. change (zlen [192]) with 1 in Ls. lia. }
    assert (Ll : zlen (sd_boot ++ [start mod 256; start / 256] ++ map (fun i => address / 256 + i) (zrange (sd_pages c)) ++ [192]) = 80 + sd_pages c).
    { rewrite !zlen_app, zlen_map, zlen_zrange by lia. change (zlen sd_boot) with 77. change (zlen [start mod 256; start / 256]) with 2. change (zlen [192]) with 1. lia. }
    rewrite Ll. replace tail with (zeros (256 - (80 + sd_pages c))); [reflexivity|].
    apply (znth_ext 0); [rewrite zlen_zeros by lia; lia|]. intros i Hi. rewrite zlen_zeros in Hi by lia.
    rewrite (Hz (znth 0 tail i)) by (apply znth_In; lia). apply znth_zeros. lia.
  Qed.
  (** The disk in ProDOS order. *)
  Lemma disk_line d : sd_disk c address start d -> reordered d (s2b "raw") (s2b "po") line.
  Proof.
    intros HD. pose proof (first_shape d HD) as E0. destruct HD as (Ld & _ & HB & HZ). pose proof sd_sizes as Z.
    split; [exact Ld|]. split; [exact sd_line_len|]. exists raw_interleave, po_interleave. split; [constructor|]. split; [constructor|].
    intros t s s' Ht Hs Hs' E.
    assert (Es : znth 0 raw_interleave s = s).
    { assert (raw_interleave = zrange 16) as -> by reflexivity. apply znth_zrange. lia. }
    rewrite Es in E. subst s. change po_interleave with sd_order.
    assert (EK : sector d t (znth 0 sd_order s') = sd_sector d (16 * t + s')).
    { unfold sd_sector. f_equal; [lia|f_equal; lia]. }
    rewrite EK. destruct (line_sector t s' Ht Hs') as [E1 E2].
    assert (Hk : 0 <= 16 * t + s' < 560) by lia. remember (16 * t + s') as k eqn:Ek.
    assert (Lk : zlen (sd_sector d k) = 256).
    { destruct (sd_off_range k Hk) as (R1 & R2 & R3 & R4). unfold sd_sector. apply zlen_sector; unfold sd_off in *; lia. }
    apply (znth_ext 0); [lia|]. intros j Hj. rewrite E1 in Hj. rewrite E2 by lia. destruct (Z.eq_dec k 0) as [->|Hk0].
    - rewrite E0. unfold sd_line. apply znth_app1. rewrite sd_first_len. lia.
    - destruct (Z_le_gt_dec k (sd_pages c)) as [Hle|Hgt].
      + specialize (HB (k - 1) j ltac:(lia) Hj). replace (k - 1 + 1) with k in HB by lia. rewrite HB.
        pose proof (line_binary (k - 1) ltac:(lia) ltac:(lia) j Hj) as B. replace (k - 1 + 1) with k in B by lia. exact B.
      + rewrite (HZ k j) by lia. apply line_after. lia.
  Qed.
  Lemma line_release : release_byte line = 0.
  Proof.
    pose proof sd_sizes as Z. unfold release_byte. rewrite line_zero by lia. apply znth_zeros. lia.
  Qed.
  Lemma line_bytes : bytes_ok c -> bytes_ok line.
  Proof.
    intros Hc. pose proof sd_sizes as Z. destruct HA as (A1 & A2 & A3 & A4).
    unfold sd_line, sd_first. cbv zeta. repeat (apply Forall_app; split); try apply bytes_zeros; try exact Hc.
    - apply Forall_forall. intros x Hx. assert (forallb (fun x => (0 <=? x) && (x <? 256)) sd_boot = true) as F by reflexivity. rewrite forallb_forall in F. specialize (F x Hx). unfold is_byte. lia.
    - repeat constructor; unfold is_byte; lia.
    - apply Forall_forall. intros x Hx. apply in_map_iff in Hx as (i & <- & Hi). apply In_zrange in Hi. unfold is_byte. lia.
    - repeat constructor; unfold is_byte; lia.
  Qed.
End Line.

(** ** What the other commands see *)
Definition floppy_order (o : bytes) : Prop := o = s2b "do" \/ o = s2b "po".
(** What is read in one order from a disk in another: the sectors of track 0 that matter. *)
Lemma cross_raw l o o' raw d1 : floppy_order o -> floppy_order o' -> reordered l (s2b "po") o raw -> reordered raw o' (s2b "raw") d1 ->
  (o' = o /\ sector d1 0 9 = sector l 0 12) \/ (o' <> o /\ sector d1 0 10 = sector l 0 10).
Proof.
  intros Ho Ho' (_ & _ & lp & lo & Ip & Io & H) (_ & _ & lo' & lr & Io' & Ir & H').
  inversion Ir; subst. inversion Ip; subst.
  destruct Ho as [-> | ->]; inversion Io; subst; destruct Ho' as [-> | ->]; inversion Io'; subst.
  - left. split; [reflexivity|]. rewrite (H' 0 3 9) by (lia || reflexivity). apply H; lia || reflexivity.
  - right. split; [discriminate|]. rewrite (H' 0 5 10) by (lia || reflexivity). apply H; lia || reflexivity.
  - right. split; [discriminate|]. rewrite (H' 0 10 10) by (lia || reflexivity). apply H; lia || reflexivity.
  - left. split; [reflexivity|]. rewrite (H' 0 12 9) by (lia || reflexivity). apply H; lia || reflexivity.
Qed.
Lemma cross_po l o o' raw dp : floppy_order o -> floppy_order o' -> reordered l (s2b "po") o raw -> reordered raw o' (s2b "po") dp ->
  exists i j, 4 <= i < 16 /\ 4 <= j < 16 /\ sector dp 0 4 = sector l 0 i /\ sector dp 0 5 = sector l 0 j.
Proof.
  intros Ho Ho' (_ & _ & lp & lo & Ip & Io & H) (_ & _ & lo' & lr & Io' & Ir & H').
  inversion Ir; subst. inversion Ip; subst.
  destruct Ho as [-> | ->]; inversion Io; subst; destruct Ho' as [-> | ->]; inversion Io'; subst.
  - exists 4, 5. split; [lia|]. split; [lia|]. rewrite (H' 0 11 4), (H' 0 10 5) by (lia || reflexivity). split; apply H; lia || reflexivity.
  - exists 11, 10. split; [lia|]. split; [lia|]. rewrite (H' 0 4 4), (H' 0 5 5) by (lia || reflexivity). split; apply H; lia || reflexivity.
  - exists 11, 10. split; [lia|]. split; [lia|]. rewrite (H' 0 11 4), (H' 0 10 5) by (lia || reflexivity). split; apply H; lia || reflexivity.
  - exists 4, 5. split; [lia|]. split; [lia|]. rewrite (H' 0 4 4), (H' 0 5 5) by (lia || reflexivity). split; apply H; lia || reflexivity.
Qed.
Lemma zero_not_naked d s : s = 9 \/ s = 10 -> sector d 0 s = zeros 256 -> ~ naked_disk d.
Proof.
  intros Hs E F. pose proof (fl_len _ _ F) as L.
  assert (znth 0 (sector d 0 s) 255 = 0) as Ez by (rewrite E; apply znth_zeros; lia).
  unfold sector in Ez. rewrite znth_sub in Ez by (unfold offset; lia).
  apply (v_leg _ (fl_ver _ _ F) (256 * s + 255 - 2512)); [lia|]. unfold stored_map. rewrite znth_sub by lia.
  replace (2512 + (256 * s + 255 - 2512)) with (offset 0 s + 255) by (unfold offset; lia). exact Ez.
Qed.
Lemma blank_volume d : zlen d = 143360 -> bytes_ok d -> sector d 0 4 = zeros 256 -> sector d 0 5 = zeros 256 ->
  ProdosSpec.well_formed d blank_tree /\ filter ProdosSpec.is_live (ProdosSpec.dir_entries d 2 []) = [].
Proof.
  intros L B E4 E5. assert (EB : ProdosSpec.blk d 2 = zeros 512).
  { apply (znth_ext 0).
    - unfold ProdosSpec.blk. rewrite zlen_sub by lia. rewrite zlen_zeros by lia. lia.
    - intros i Hi. unfold ProdosSpec.blk in *. rewrite zlen_sub in Hi by lia. rewrite znth_sub by lia. rewrite znth_zeros by lia.
      assert (forall s, sector d 0 s = zeros 256 -> 0 <= s < 16 -> forall j, 0 <= j < 256 -> znth 0 d (256 * s + j) = 0) as HS.
      { intros s Es Hs j Hj. assert (znth 0 (sector d 0 s) j = 0) as Ez by (rewrite Es; apply znth_zeros; lia).
        unfold sector in Ez. rewrite znth_sub in Ez by (unfold offset; lia). unfold offset in Ez. rewrite <- Ez. f_equal. lia. }
      destruct (Z_lt_ge_dec i 256) as [H|H].
      + replace (512 * 2 + i) with (256 * 4 + i) by lia. apply HS; [exact E4|lia|lia].
      + replace (512 * 2 + i) with (256 * 5 + (i - 256)) by lia. apply HS; [exact E5|lia|lia]. }
  assert (N : ProdosSpec.next_block d 2 = 0) by (unfold ProdosSpec.next_block; rewrite EB; vm_compute; reflexivity).
  assert (ES : ProdosSpec.dir_entries d 2 [] = ProdosSpec.key_slots (zeros 512)).
  { unfold ProdosSpec.dir_entries. rewrite EB. cbn [map concat]. apply app_nil_r. }
  split; [|rewrite ES; vm_compute; reflexivity].
  split; [exact B|lia|intros H; lia|reflexivity| |].
  - apply ProdosSpec.tree_node; [split; [unfold ProdosSpec.in_dev; lia|rewrite N; constructor]|rewrite ES; vm_compute; reflexivity|intros s []|intros s []].
  - constructor; [intros []|constructor].
Qed.

Section Seen.
  Context (order name c : bytes) (address start0 : Z) (raw o : bytes) (Hf : order_flag order) (Ho : sd_image_order order name o)
          (Ha : 0 <= address < 65536) (Hs : 0 <= start0 < 65536) (HR : sd_image order name c address start0 = Ok raw).
  Notation start := (sd_start address start0).
  Notation line := (sd_line c address start).
  Lemma seen_accepts : sd_accepts c address start.
  Proof. apply (C67_lemma order name c address start0 o Hf Ho Ha Hs). exists raw. exact HR. Qed.
  Lemma seen_order : floppy_order o.
  Proof. exact (proj2 (sd_order_value _ _ _ Hf Ho)). Qed.
  Lemma seen_line : reordered line (s2b "po") o raw.
  Proof.
    destruct (C67_lemma order name c address start0 o Hf Ho Ha Hs) as (_ & _ & H & _). destruct (H raw HR) as (d & HD & HO).
    apply (reordered_via d (s2b "raw") (s2b "po") o); [apply (disk_line _ _ _ seen_accepts); exact HD|exact HO].
  Qed.
  Lemma seen_release : release_byte raw = 0.
  Proof. rewrite (release_same _ _ _ _ seen_line). apply line_release. exact seen_accepts. Qed.
  Lemma seen_not_dos o' d : reordered raw o' (s2b "do") d -> not_dos d.
  Proof. intros R. apply (not_dos_release _ _ _ R). rewrite seen_release. discriminate. Qed.
  Lemma seen_not_naked o' d : sd_pages c <= 9 -> floppy_order o' -> reordered raw o' (s2b "raw") d -> ~ naked_disk d.
  Proof.
    intros HP Ho' R. pose proof seen_accepts as HA. destruct (cross_raw _ _ _ _ _ seen_order Ho' seen_line R) as [[_ E]|[_ E]];
      rewrite (line_zero c address start HA) in E by lia.
    - apply (zero_not_naked d 9); [left; reflexivity|exact E].
    - apply (zero_not_naked d 10); [right; reflexivity|exact E].
  Qed.
  Lemma seen_bytes : bytes_ok c -> bytes_ok raw.
  Proof. intros Hc. apply (reordered_bytes _ _ _ _ seen_line). apply line_bytes; [exact seen_accepts|lia|exact Hc]. Qed.
  Lemma seen_raw_len : zlen raw = 143360.
  Proof. exact (proj1 (proj2 seen_line)). Qed.
  (** A short binary: an empty volume. *)
  Lemma seen_empty img flag o' : bytes_ok c -> sd_pages c <= 3 -> first_order img flag o' ->
    exists d, seen_as img flag raw (s2b "prodos") d o' /\ ProdosSpec.well_formed d blank_tree /\ filter ProdosSpec.is_live (ProdosSpec.dir_entries d 2 []) = [].
  Proof.
    intros Hc HP [rest HF]. pose proof seen_accepts as HA. pose proof seen_raw_len as L.
    assert (Ho' : floppy_order o') by (remember (o' :: rest) as os eqn:E; destruct HF; injection E as <- _; unfold floppy_order; auto).
    assert (Io' : exists l, interleave o' l) by (destruct Ho' as [-> | ->]; eexists; constructor).
    destruct (reordered_ex raw o' (s2b "do") L Io' (ex_intro _ _ il_do)) as [d0 R0].
    destruct (reordered_ex raw o' (s2b "raw") L Io' (ex_intro _ _ il_raw)) as [d1 R1].
    destruct (reordered_ex raw o' (s2b "po") L Io' (ex_intro _ _ il_po)) as [d R]. exists d.
    destruct (cross_po _ _ _ _ _ seen_order Ho' seen_line R) as (i & j & Hi & Hj & E4 & E5).
    rewrite (line_zero c address start HA) in E4, E5 by lia.
    destruct (blank_volume d (proj1 (proj2 R)) (reordered_bytes _ _ _ _ R (seen_bytes Hc)) E4 E5) as [W F].
    split; [|split; [exact W|exact F]]. apply (sa_floppy _ _ _ [] o' rest); [exact L|exact (seen_bytes Hc)|exact HF|constructor|].
    apply (ra_prodos _ _ d0 d1 d); [exact R0|exact (seen_not_dos _ _ R0)|exact R1|exact (seen_not_naked _ _ ltac:(lia) Ho' R1)|exact R|exists blank_tree; exact W].
  Qed.
End Seen.

(** ** The statements *)
Lemma sd_po_lemma : forall order name c address start0 raw, order_flag order -> sd_image_order order name (s2b "po") -> 0 <= address < 65536 -> 0 <= start0 < 65536 ->
  sd_image order name c address start0 = Ok raw -> raw = sd_line c address (sd_start address start0) /\ zlen (sd_first c address (sd_start address start0)) = 256.
Proof.
  intros order name c address start0 raw Hf Ho Ha Hs HR. pose proof (seen_line order name c address start0 raw (s2b "po") Hf Ho Ha Hs HR) as R.
  pose proof (seen_accepts order name c address start0 raw _ Hf Ho Ha Hs HR) as HA. split; [|apply sd_first_len; exact HA].
  apply (reordered_fun _ _ _ _ _ R). apply (reordered_self _ _ _ (proj1 R) il_po).
Qed.
Lemma sd_reorder_lemma : forall order1 name1 o1 raw1 order2 name2 o2 raw2 c address start0,
  order_flag order1 -> sd_image_order order1 name1 o1 -> order_flag order2 -> sd_image_order order2 name2 o2 -> 0 <= address < 65536 -> 0 <= start0 < 65536 ->
  sd_image order1 name1 c address start0 = Ok raw1 -> sd_image order2 name2 c address start0 = Ok raw2 -> reordered raw1 o1 o2 raw2.
Proof.
  intros order1 name1 o1 raw1 order2 name2 o2 raw2 c address start0 F1 S1 F2 S2 Ha Hs E1 E2.
  apply (reordered_via (sd_line c address (sd_start address start0)) (s2b "po")); [exact (seen_line _ _ _ _ _ _ _ F1 S1 Ha Hs E1)|exact (seen_line _ _ _ _ _ _ _ F2 S2 Ha Hs E2)].
Qed.
Section Edits.
  Context (iter : list (Z * Subdirectory) -> list (Z * Subdirectory)) (fuel : nat).
  Notation facs k := (DiskOperatorFactories iter k).
  Lemma not_naked_edits img order system c w ft ow addr tgt src force n address start :
    (forall system x o, OpenImage c (image_name img) order system (facs fuel) <> Ok (ONaked x, o)) -> input w img c ->
    leaves_alone (DeleteCmd_Run iter fuel order system force img n) w /\
    leaves_alone (PutCmd_Run iter fuel order system ft ow addr img tgt src) w /\
    leaves_alone (MkHelloCmd_Run iter fuel order img n address start) w.
  Proof.
    intros HN Hin. destruct (open_run_gen iter w img order system c Hin) as (w1 & Er & Hsf & Hso & _). specialize (Er fuel).
    destruct (open_run_gen iter w img order (s2b "auto") c Hin) as (w2 & Er2 & Hsf2 & Hso2 & _). specialize (Er2 fuel).
    assert (Hself : same_files w w) by (intros x; reflexivity).
    unfold leaves_alone, main_run. split; [|split].
    - unfold DeleteCmd_Run. rewrite run_pbind, Er. destruct (OpenImage c (image_name img) order system (facs fuel)) as [[op o]|e|] eqn:E.
      + destruct op as [x|x|x]; [|contradiction (HN system x o E)|]; cbn [Op_Delete lift_op]; (eexists w1, 1; split; [reflexivity|]; split; [lia|]; split; [exact Hsf|exact Hso]).
      + exists w1, 1. split; [reflexivity|]. split; [lia|]. split; [exact Hsf|exact Hso].
      + exists w1, 2. split; [reflexivity|]. split; [lia|]. split; [exact Hsf|exact Hso].
    - unfold PutCmd_Run. destruct (beq img dash && beq src dash).
      { exists w, 1. split; [reflexivity|]. split; [lia|]. split; [exact Hself|reflexivity]. }
      rewrite run_pbind, Er. destruct (OpenImage c (image_name img) order system (facs fuel)) as [[op o]|e|] eqn:E.
      + rewrite run_pbind. destruct (run (FileContentsOrStdIn src) w1) as [w3 r] eqn:E3. destruct (contents_run _ _ _ _ E3) as (Hsf3 & Hso3 & Hp3).
        assert (same_files w w3) as S3 by (intros m; rewrite (Hsf3 m); apply Hsf). assert (w_stdout w3 = w_stdout w) as O3 by congruence.
        destruct r as [s|e|]; [|exists w3, 1; split; [reflexivity|]; split; [lia|]; split; [exact S3|exact O3]|contradiction].
        rewrite run_pbind. unfold plift at 1. cbn [run]. destruct (FiletypeForName ft) as [f|e|] eqn:Ef; [| |contradiction (filetype_no_panic ft)].
        * destruct op as [x|x|x]; [|contradiction (HN system x o E)|]; cbn [Op_PutFile lift_op]; (exists w3, 1; split; [reflexivity|]; split; [lia|]; split; [exact S3|exact O3]).
        * exists w3, 1. split; [reflexivity|]. split; [lia|]. split; [exact S3|exact O3].
      + exists w1, 1. split; [reflexivity|]. split; [lia|]. split; [exact Hsf|exact Hso].
      + exists w1, 2. split; [reflexivity|]. split; [lia|]. split; [exact Hsf|exact Hso].
    - unfold MkHelloCmd_Run. cbv zeta. destruct (negb (address mod 256 =? 0)).
      { exists w, 1. split; [reflexivity|]. split; [lia|]. split; [exact Hself|reflexivity]. }
      destruct ((if start =? 65535 then address else start) <? address).
      { exists w, 1. split; [reflexivity|]. split; [lia|]. split; [exact Hself|reflexivity]. }
      rewrite run_pbind, Er2. destruct (OpenImage c (image_name img) order (s2b "auto") (facs fuel)) as [[op o]|e|] eqn:E.
      + destruct op as [x|x|x]; [|contradiction (HN (s2b "auto") x o E)|]; (exists w2, 1; split; [reflexivity|]; split; [lia|]; split; [exact Hsf2|exact Hso2]).
      + exists w2, 1. split; [reflexivity|]. split; [lia|]. split; [exact Hsf2|exact Hso2].
      + exists w2, 2. split; [reflexivity|]. split; [lia|]. split; [exact Hsf2|exact Hso2].
  Qed.
End Edits.
Lemma sd_edits_lemma : forall (iter : list (Z * Subdirectory) -> list (Z * Subdirectory)) fuel order name c address start0 raw,
  order_flag order -> 0 <= address < 65536 -> 0 <= start0 < 65536 -> sd_image order name c address start0 = Ok raw -> zlen c <= 2304 ->
  forall img flag system w ft ow addr tgt src force n a s, input w img raw ->
  leaves_alone (DeleteCmd_Run iter fuel flag system force img n) w /\
  leaves_alone (PutCmd_Run iter fuel flag system ft ow addr img tgt src) w /\
  leaves_alone (MkHelloCmd_Run iter fuel flag img n a s) w.
Proof.
  intros iter fuel order name c address start0 raw Hf Ha Hs HR HL img flag system w ft ow addr tgt src force n a s Hin.
  destruct (sd_order_exists order name Hf) as [o Ho].
  apply (not_naked_edits iter fuel img flag system raw); [|exact Hin]. intros sys x o' E.
  destruct (naked_opened iter fuel _ _ _ _ _ _ E) as (_ & _ & _ & _ & _ & [R N] & _). destruct (open_order iter fuel _ _ _ _ _ _ E) as (os & Hc & Hin').
  assert (Ho' : floppy_order o') by (destruct Hc; repeat (destruct Hin' as [<-|Hin']; [unfold floppy_order; auto|]); destruct Hin').
  apply (seen_not_naked order name c address start0 raw o Hf Ho Ha Hs HR o' (op_data x)); [unfold sd_pages; lia|exact Ho'|exact R|exact N].
Qed.
Lemma sd_empty_lemma : forall (iter : list (Z * Subdirectory) -> list (Z * Subdirectory)) order name c address start0 raw,
  ProdosSpec.an_order iter -> order_flag order -> bytes_ok c -> 0 <= address < 65536 -> 0 <= start0 < 65536 -> sd_image order name c address start0 = Ok raw -> zlen c <= 768 ->
  forall img flag o' w, first_order img flag o' -> input w img raw -> w_outroom w = None ->
  (forall short, eventually (fun fuel => prints (LsCmd_Run iter fuel flag (s2b "auto") short img []) w [])) /\
  (forall n, eventually (fun fuel => fails_cleanly (DumpCmd_Run iter fuel flag (s2b "auto") img n) w)).
Proof.
  intros iter order name c address start0 raw Hi Hf Hc Ha Hs HR HL img flag o' w HF Hin Hw. destruct (sd_order_exists order name Hf) as [o Ho].
  destruct (seen_empty order name c address start0 raw o Hf Ho Ha Hs HR img flag o' Hc ltac:(unfold sd_pages; lia) HF) as (d & S & W & F). split.
  - intros short. pose proof (ls_prodos iter img flag (s2b "auto") raw d o' blank_tree [] 2 [] short w Hi S (or_introl eq_refl) Hin Hw W (or_introl eq_refl)) as H.
    assert (forall x, In ([], x) (ProdosSpec.paths d [] blank_tree) -> x = (2, [])) as HU by (intros x [X|[]]; congruence).
    specialize (H HU). eapply eventually_impl; [|exact H]. intros k (text & T & P). cbv beta in *. rewrite F in T. cbn [map] in T.
    remember (@nil bytes) as ns eqn:En. destruct T; [exact P|discriminate En].
  - intros n. apply (dump_prodos iter img flag (s2b "auto") raw d o' n w Hi S (or_introl eq_refl) Hin).
Qed.
Lemma sd_never_dos : forall order name c address start0 raw, order_flag order -> 0 <= address < 65536 -> 0 <= start0 < 65536 -> sd_image order name c address start0 = Ok raw ->
  forall img flag sys d o, ImageSpec.opening img flag (s2b "auto") raw (ImageSpec.Opened sys d o) -> sys <> s2b "dos3".
Proof.
  intros order name c address start0 raw Hf Ha Hs HR img flag sys d o HO. destruct (sd_order_exists order name Hf) as [o0 Ho].
  pose proof (fun o' d' => seen_not_dos order name c address start0 raw o0 Hf Ho Ha Hs HR o' d') as ND.
  pose proof (seen_raw_len order name c address start0 raw o0 Hf Ho Ha Hs HR) as L.
  inversion HO as [os ss r H1 H2 H3 H4 HS| o1 so d1 H1 H2 H3 H4 H5| | | |H1 H2|]; subst.
  - clear - HS ND. remember (ImageSpec.Opened sys d o) as r eqn:Er. induction HS as [|o1 sys1 so d1 rest K1 K2 K3|o1 sys1 so d1 rest r K1 K2 K3 K4 IH|]; [discriminate Er| |exact (IH Er)|discriminate Er].
    injection Er as -> -> ->. intros ->. inversion K1; subst. inversion K3 as [D| | | | | | |]; subst. exact (proj1 (ND _ _ K2) D).
  - inversion H3.
  - contradiction (H1 L).
Qed.
