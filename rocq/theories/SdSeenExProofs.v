(** SdSeenExProofs.v -- examples for property C125. *)
From Coq Require Import ZifyBool ZifyNat.
From Verif Require Import GoBase GoLemmas TypesModel DiskModel DiskSpec DiskProofs.
From Verif Require Import SupermonModel SupermonSpec SupermonTableSpec SupermonStoreSpec SupermonProofs SupermonOpProofs SupermonFinalProofs.
From Verif Require Import ProdosModel CmdModel CmdSpec CmdStmtProofs MainModel NakedCmdSpec NakedCmdProofs NakedOpenProofs NakedExProofs SessionSpec SessionProofs SessionExProofs SdSpec SdProofs SdSeenSpec SdSeenProofs BackupSpec BackupProofs BackupExProofs.
From Verif Require DiskOpenProofs DetectProofs ImageSpec.
Ltac Zify.zify_post_hook ::= Z.div_mod_to_equations.
Local Opaque zrange zeros sub.

(** A binary of 13 pages that makes the disk look like a NakedOS disk without files. *)
Definition lure : bytes := repeat 255 3024 ++ repeat 254 12 ++ repeat 255 292.
Lemma lure_accepted : sd_accepts lure 0x2000 (sd_start 0x2000 0xFFFF).
Proof. unfold sd_accepts, sd_pages, sd_start. assert (zlen lure = 3328) as -> by (vm_compute; reflexivity). cbn [Z.eqb Pos.eqb]. vm_compute. repeat split; discriminate. Qed.
Lemma flag_auto : order_flag (s2b "auto").
Proof. constructor. Qed.
Lemma lure_line : sector (sd_line lure 0x2000 0x2000) 0 12 = repeat 255 208 ++ repeat 254 12 ++ repeat 255 36 /\
  sector (sd_line lure 0x2000 0x2000) 0 5 = repeat 255 256 /\ sector (sd_line lure 0x2000 0x2000) 0 13 = repeat 255 256.
Proof. split; [|split]; vm_compute; reflexivity. Qed.
Lemma map_from d a b c : zlen d = 143360 -> sector d 0 9 = a -> sector d 0 10 = b -> sector d 0 11 = c -> stored_map d = sub a 208 256 ++ b ++ c.
Proof.
  intros L <- <- <-. unfold stored_map, sector, offset. apply (znth_ext 0).
  - rewrite !zlen_app, !zlen_sub by (rewrite ?zlen_sub; lia). lia.
  - intros i Hi. rewrite zlen_sub in Hi by lia. rewrite znth_sub by lia. rewrite !znth_app by lia. rewrite !zlen_sub by (rewrite ?zlen_sub; lia).
    destruct (i <? 256 - 208) eqn:E1.
    + rewrite !znth_sub by (rewrite ?zlen_sub; lia). f_equal. lia.
    + rewrite znth_app by lia. rewrite zlen_sub by lia. destruct (i - (256 - 208) <? _) eqn:E2; rewrite znth_sub by lia; f_equal; lia.
Qed.
Lemma lure_seen : exists raw d, sd_image (s2b "auto") (s2b "x.do") lure 0x2000 0xFFFF = Ok raw /\ naked_image raw (s2b "do") d /\ stored_map d = ex_map /\ release_byte raw <> 3.
Proof.
  assert (Ho : sd_image_order (s2b "auto") (s2b "x.do") (s2b "do")).
  { destruct (sd_order_exists (s2b "auto") (s2b "x.do") flag_auto) as [o Ho]. destruct (sd_order_value _ _ _ flag_auto Ho) as [E _].
    assert (o = s2b "do") as <- by (rewrite <- E; vm_compute; reflexivity). exact Ho. }
  destruct (C67_lemma (s2b "auto") (s2b "x.do") lure 0x2000 0xFFFF (s2b "do") flag_auto Ho ltac:(lia) ltac:(lia)) as (H1 & _ & H2 & _).
  destruct (proj2 H1 lure_accepted) as [raw HR]. destruct (H2 raw HR) as (d & HD & HO). exists raw, d. split; [exact HR|].
  pose proof (disk_line lure 0x2000 _ lure_accepted d HD) as HL. change (sd_start 0x2000 0xFFFF) with 0x2000 in HL.
  remember (sd_line lure 0x2000 0x2000) as line eqn:El. pose proof lure_line as (L9 & L10 & L11). rewrite <- El in L9, L10, L11.
  assert (HM : stored_map d = ex_map).
  { apply reordered_back in HL. destruct HL as (_ & Ld & lp & lr & Ip & Ir & H). inversion Ip; subst lp. inversion Ir; subst lr.
    rewrite (map_from d _ _ _ Ld (eq_trans (H 0 12 9 ltac:(lia) ltac:(lia) ltac:(lia) eq_refl) L9) (eq_trans (H 0 5 10 ltac:(lia) ltac:(lia) ltac:(lia) eq_refl) L10) (eq_trans (H 0 13 11 ltac:(lia) ltac:(lia) ltac:(lia) eq_refl) L11)).
    vm_compute. reflexivity. }
  split; [|split; [exact HM|]].
  - split; [apply reordered_back; exact HO|]. split; [exact (proj1 HO)| |reflexivity]. rewrite HM. exact (fl_ver _ _ blank_floppy).
  - rewrite (seen_release (s2b "auto") (s2b "x.do") lure 0x2000 0xFFFF raw (s2b "do") flag_auto Ho ltac:(lia) ltac:(lia) HR). discriminate.
Qed.
(** Saving a sector of ones and putting it on the disk succeeds and changes the image. *)
Definition lure_actions : list action := restore false 0 two_disk [Item 6 (s2b "DF06") (s2b "f")].
Lemma lure_actions_eq : lure_actions = [ASave (s2b "f") (repeat 1 256); APut (s2b "B") false 0 (s2b "DF06") (s2b "f")].
Proof. unfold lure_actions, restore. cbn [flat_map it_way it_file it_name app]. rewrite two_six. reflexivity. Qed.
Lemma lure_item w : w_fs w (s2b "f") = NFile [7] true true -> good_item (s2b "x.do") w (Item 6 (s2b "DF06") (s2b "f")).
Proof.
  intros W2. split; cbn [it_name it_file it_way]; [apply numeric_parse; [vm_compute; reflexivity|discriminate]|discriminate|discriminate|right; exists [7]; exact W2].
Qed.
Lemma lure_changed iter fuel : exists raw raw' w w',
  sd_image (s2b "auto") (s2b "x.do") lure 0x2000 0xFFFF = Ok raw /\ w_fs w (s2b "x.do") = NFile raw true true /\
  session (map (command iter fuel (s2b "auto") (s2b "x.do")) [ASave (s2b "f") (repeat 1 256); APut (s2b "B") false 0 (s2b "DF06") (s2b "f")]) w = (w', [(0, []); (0, [])]) /\
  w_fs w' (s2b "x.do") = NFile raw' true true /\ raw' <> raw.
Proof.
  destruct lure_seen as (raw & d & HR & HN & HM & Hrel).
  remember (NakedExProofs.two_files (s2b "x.do") raw (s2b "f") [7]) as w eqn:Ew.
  assert (W1 : w_fs w (s2b "x.do") = NFile raw true true) by (rewrite Ew; reflexivity).
  assert (W2 : w_fs w (s2b "f") = NFile [7] true true) by (rewrite Ew; reflexivity).
  assert (W4 : w_room w = None) by (rewrite Ew; reflexivity). assert (W5 : w_outroom w = None) by (rewrite Ew; reflexivity). clear Ew.
  remember [Item 6 (s2b "DF06") (s2b "f")] as l eqn:El.
  assert (HG : Forall (good_item (s2b "x.do") w) l).
  { rewrite El. apply Forall_cons; [|apply Forall_nil]. apply lure_item. exact W2. }
  assert (HD : NoDup (map it_file l)) by (rewrite El; apply NoDup_cons; [intros []|apply NoDup_nil]).
  assert (H6 : file_on d 6 = []) by (unfold file_on, content; rewrite HM, (none_owned _ _ 6 blank_values eq_refl) by reflexivity; reflexivity).
  assert (HF : forall i, In i l -> file_on two_disk (it_file i) <> [] /\ file_on d (it_file i) = []).
  { rewrite El. intros i [<-|[]]. cbn [it_file]. split; [rewrite two_six; discriminate|exact H6]. }
  assert (HT : total two_disk l <= free_on d).
  { assert (free_on d = 548) as -> by (unfold free_on; rewrite HM; vm_compute; reflexivity). rewrite El. unfold total, sectors_on. cbn [fold_right it_file]. rewrite two_stored, (proj2 two_owned). vm_compute. discriminate. }
  assert (HM' : forall i, In i l -> no_mark (file_on two_disk (it_file i))).
  { rewrite El. intros i [<-|[]]. cbn [it_file]. rewrite two_six. apply no_mark_repeat. lia. }
  assert (Hd : s2b "x.do" <> s2b "-") by discriminate.
  destruct (restore_unmarked iter fuel (s2b "auto") (s2b "x.do") (s2b "do") false 0 two_disk l w raw d Hd first_do two_len W1 HN W4 W5 HG HD HF HT Hrel HM') as [HU _].
  destruct (restore_lemma iter fuel (s2b "auto") (s2b "x.do") (s2b "do") false 0 two_disk l w raw d Hd first_do two_len W1 HN W4 W5 HG HD HF HT HU) as (w' & c' & e' & E & Hc' & Hn' & Hnew & _).
  exists raw, c', w, w'. split; [exact HR|]. split; [exact W1|]. split; [rewrite <- lure_actions_eq; unfold lure_actions; rewrite <- El; rewrite E, El; reflexivity|]. split; [exact Hc'|].
  intros ->. assert (e' = d) as -> by exact (reordered_fun _ _ _ _ _ (proj1 Hn') (proj1 HN)).
  specialize (Hnew (Item 6 (s2b "DF06") (s2b "f")) ltac:(rewrite El; left; reflexivity)). cbn [it_file] in Hnew. rewrite H6, two_six in Hnew. discriminate Hnew.
Qed.
(** A short binary. *)
Lemma short_example : exists raw w, sd_image (s2b "auto") (s2b "x.dsk") (repeat 7 600) 0x2000 0x2100 = Ok raw /\ input w (s2b "x.dsk") raw /\ w_outroom w = None /\
  first_order (s2b "x.dsk") (s2b "auto") (s2b "do") /\ bytes_ok (repeat 7 600) /\ zlen (repeat 7 600) = 600.
Proof.
  destruct (sd_order_exists (s2b "auto") (s2b "x.dsk") flag_auto) as [o Ho].
  destruct (C67_lemma (s2b "auto") (s2b "x.dsk") (repeat 7 600) 0x2000 0x2100 o flag_auto Ho ltac:(lia) ltac:(lia)) as (H1 & _).
  assert (HA : sd_accepts (repeat 7 600) 0x2000 (sd_start 0x2000 0x2100)) by (vm_compute; repeat split; discriminate).
  destruct (proj2 H1 HA) as [raw HR]. exists raw, (NakedExProofs.two_files (s2b "x.dsk") raw (s2b "f") [7]). split; [exact HR|].
  split; [right; split; [discriminate|]; exists true; reflexivity|]. split; [reflexivity|]. split; [exists [s2b "po"]; exact DetectProofs.auto_dsk|]. split; [|vm_compute; reflexivity].
  apply Forall_forall. intros x Hx. apply repeat_spec in Hx. subst x. unfold is_byte. lia.
Qed.
Lemma po_example : sd_image_order (s2b "auto") (s2b "x.po") (s2b "po") /\ exists raw, sd_image (s2b "auto") (s2b "x.po") (repeat 7 600) 0x2000 0x2100 = Ok raw.
Proof.
  assert (Ho : sd_image_order (s2b "auto") (s2b "x.po") (s2b "po")).
  { destruct (sd_order_exists (s2b "auto") (s2b "x.po") flag_auto) as [o Ho]. destruct (sd_order_value _ _ _ flag_auto Ho) as [E _].
    assert (o = s2b "po") as <- by (rewrite <- E; vm_compute; reflexivity). exact Ho. }
  split; [exact Ho|]. destruct (C67_lemma (s2b "auto") (s2b "x.po") (repeat 7 600) 0x2000 0x2100 _ flag_auto Ho ltac:(lia) ltac:(lia)) as (H1 & _).
  apply (proj2 H1). vm_compute. repeat split; discriminate.
Qed.
Lemma opened_example : exists raw d, sd_image (s2b "auto") (s2b "x.do") lure 0x2000 0xFFFF = Ok raw /\ ImageSpec.opening (s2b "x.do") (s2b "auto") (s2b "auto") raw (ImageSpec.Opened (s2b "nakedos") d (s2b "do")).
Proof.
  destruct lure_seen as (raw & d & HR & [HN1 HN2] & _ & Hrel). exists raw, d. split; [exact HR|].
  pose proof (DetectProofs.reordered_self _ (s2b "do") _ (proj1 HN1) il_do) as R.
  apply (ImageSpec.og_scan _ _ _ _ [s2b "do"] [s2b "dos3"; s2b "nakedos"; s2b "prodos"]); [exact (proj1 HN1)|apply cand_auto_do; apply DiskOpenProofs.ext_is_dec_true; [DiskOpenProofs.ascii|reflexivity]|constructor|left; reflexivity|].
  cbn [list_prod map app]. eapply ImageSpec.sc_no; [constructor|exact R|apply ImageSpec.td_dos_no; exact (DetectProofs.not_dos_release _ _ _ R Hrel)|].
  eapply ImageSpec.sc_yes; [constructor|exact HN1|apply ImageSpec.td_naked_yes; exact HN2].
Qed.
