(** BackupExProofs.v -- example for property C124. *)
From Coq Require Import ZifyBool ZifyNat.
From Verif Require Import GoBase GoLemmas TypesModel DiskModel DiskSpec DiskProofs.
From Verif Require Import SupermonModel SupermonSpec SupermonTableSpec SupermonStoreSpec SupermonProofs SupermonOpProofs SupermonNameProofs SupermonFinalProofs.
From Verif Require Import ProdosModel CmdModel CmdSpec MainModel NakedCmdSpec NakedCmdProofs NakedOpenProofs NakedExProofs SessionSpec SessionProofs SessionExProofs BatchExProofs LocalExProofs BackupSpec BackupProofs.
Ltac Zify.zify_post_hook ::= Z.div_mod_to_equations.
Local Opaque zrange zeros sub.

(** A disk with two files, of one sector each, in sectors 100 and 272. *)
Definition two_map : bytes := zset five_map 100 6.
Definition two_disk : bytes := upd (map_disk two_map) 25600 (repeat 1 256).
Lemma two_floppy0 : floppy (map_disk two_map) two_map.
Proof. apply map_disk_floppy; [reflexivity|vm_compute; reflexivity]. Qed.
Lemma two_len0 : zlen (map_disk two_map) = 143360.
Proof. exact (fl_len _ _ two_floppy0). Qed.
Lemma two_len : zlen two_disk = 143360.
Proof. unfold two_disk. rewrite zlen_upd; rewrite ?two_len0; [reflexivity|lia|cbn; lia]. Qed.
Lemma two_stored : stored_map two_disk = two_map.
Proof. rewrite <- (fl_map _ _ two_floppy0). unfold stored_map, two_disk. apply sub_upd_before; rewrite ?two_len0; [lia|lia|cbn; lia]. Qed.
Lemma two_floppy : floppy two_disk two_map.
Proof. constructor; [exact two_len|exact (fl_ver _ _ two_floppy0)|exact two_stored]. Qed.
Lemma two_owned : owned two_map 5 = [272] /\ owned two_map 6 = [100].
Proof. split; vm_compute; reflexivity. Qed.
Lemma none_owned sm (P : Z -> bool) f : forallb P sm = true -> zlen sm = 560 -> P f = false -> owned sm f = [].
Proof.
  intros HP HL Hf. destruct (owned sm f) as [|k r] eqn:E; [reflexivity|]. exfalso.
  assert (Hk : In k (owned sm f)) by (rewrite E; left; reflexivity). apply In_owned in Hk. destruct Hk as [Hk Hz].
  rewrite forallb_forall in HP. specialize (HP (znth 0 sm k) ltac:(apply znth_In; lia)). rewrite Hz, Hf in HP. discriminate HP.
Qed.
Lemma two_values : forallb (fun x => (x =? 5) || (x =? 6) || (x =? 254) || (x =? 255)) two_map = true.
Proof. vm_compute. reflexivity. Qed.
Lemma blank_values : forallb (fun x => (x =? 254) || (x =? 255)) ex_map = true.
Proof. vm_compute. reflexivity. Qed.
Lemma two_five : file_on two_disk 5 = zeros 256.
Proof.
  unfold file_on, content. rewrite two_stored, (proj1 two_owned). cbn [flat_map]. rewrite app_nil_r. unfold sec, two_disk.
  rewrite sub_upd_after by (rewrite ?two_len0; cbn; lia).
  pose proof (map_disk_sector two_map eq_refl) as H. rewrite sector_sec in H. exact H.
Qed.
Lemma two_six : file_on two_disk 6 = repeat 1 256.
Proof.
  unfold file_on, content. rewrite two_stored, (proj2 two_owned). cbn [flat_map]. rewrite app_nil_r. unfold sec, two_disk.
  apply (sub_upd_same (map_disk two_map) (repeat 1 256) 25600); rewrite ?two_len0; cbn; lia.
Qed.
Lemma two_none f : f <> 5 -> f <> 6 -> legal f -> file_on two_disk f = [].
Proof. intros H5 H6 Hl. unfold legal in Hl. unfold file_on, content. rewrite two_stored, (none_owned _ _ f two_values eq_refl) by lia. reflexivity. Qed.
Lemma blank_floppy : floppy (map_disk ex_map) ex_map.
Proof. apply map_disk_floppy; [reflexivity|vm_compute; reflexivity]. Qed.
Lemma blank_none f : legal f -> file_on (map_disk ex_map) f = [].
Proof. intros Hl. unfold legal in Hl. unfold file_on, content. rewrite (fl_map _ _ blank_floppy), (none_owned _ _ f blank_values eq_refl) by lia. reflexivity. Qed.
Lemma blank_free : free_on (map_disk ex_map) = 548.
Proof. unfold free_on. rewrite (fl_map _ _ blank_floppy). vm_compute. reflexivity. Qed.

Definition two_items : list item := [Item 6 (s2b "DF06") (s2b "f"); Item 5 (s2b "5") (s2b "g")].
Lemma two_total : total two_disk two_items = 2.
Proof. unfold total, two_items, sectors_on. cbn [fold_right it_file]. rewrite two_stored, (proj1 two_owned), (proj2 two_owned). reflexivity. Qed.
Lemma back_example iter fuel : exists c0 c w,
  naked_image c0 (s2b "do") two_disk /\ release_byte c0 <> 3 /\
  w_fs w (s2b "x.do") = NFile c true true /\ naked_image c (s2b "do") (map_disk ex_map) /\ release_byte c <> 3 /\
  w_room w = None /\ w_outroom w = None /\
  Forall (good_item (s2b "x.do") w) two_items /\ NoDup (map it_file two_items) /\
  (forall i, In i two_items -> file_on two_disk (it_file i) <> [] /\ file_on (map_disk ex_map) (it_file i) = []) /\
  total two_disk two_items <= free_on (map_disk ex_map) /\
  throughout (unmarked (s2b "x.do")) (map (command iter fuel (s2b "auto") (s2b "x.do")) (restore false 0 two_disk two_items)) w /\
  unmarked (s2b "x.do") (fst (session (map (command iter fuel (s2b "auto") (s2b "x.do")) (restore false 0 two_disk two_items)) w)) /\
  (forall f, legal f -> file_on (map_disk ex_map) f = []) /\
  (forall f, legal f -> (file_on two_disk f <> [] <-> exists i, In i two_items /\ it_file i = f)).
Proof.
  destruct (do_image _ _ two_floppy) as [c0 H0]. destruct (do_image _ _ blank_floppy) as [c Hc].
  assert (R : release_byte c <> 3).
  { rewrite <- (release_same _ _ _ _ (proj1 Hc)). unfold release_byte. rewrite map_disk_sector by reflexivity. rewrite znth_zeros; lia. }
  assert (R0 : release_byte c0 <> 3).
  { rewrite <- (release_same _ _ _ _ (proj1 H0)). unfold release_byte. rewrite sector_sec. unfold sec, two_disk.
    rewrite sub_upd_after by (rewrite ?two_len0; cbn; lia). pose proof (map_disk_sector two_map eq_refl) as E. rewrite sector_sec in E. unfold sec in E. rewrite E. rewrite znth_zeros; lia. }
  remember (NakedExProofs.two_files (s2b "x.do") c (s2b "f") filler) as w eqn:Ew.
  assert (W1 : w_fs w (s2b "x.do") = NFile c true true) by (rewrite Ew; reflexivity).
  assert (W2 : w_fs w (s2b "f") = NFile filler true true) by (rewrite Ew; reflexivity).
  assert (W3 : w_fs w (s2b "g") = NMissing) by (rewrite Ew; reflexivity).
  assert (W4 : w_room w = None) by (rewrite Ew; reflexivity). assert (W5 : w_outroom w = None) by (rewrite Ew; reflexivity). clear Ew.
  assert (HG : Forall (good_item (s2b "x.do") w) two_items).
  { unfold two_items. apply Forall_cons; [|apply Forall_cons; [|apply Forall_nil]]; split; cbn [it_name it_file it_way]; try discriminate; try (apply numeric_parse; [vm_compute; reflexivity|lia]).
    - right. exists filler. exact W2.
    - left. exact W3. }
  assert (HN : NoDup (map it_file two_items)) by (apply NoDup_cons; [intros [H|[]]; discriminate H|apply NoDup_cons; [intros []|apply NoDup_nil]]).
  assert (HF : forall i, In i two_items -> file_on two_disk (it_file i) <> [] /\ file_on (map_disk ex_map) (it_file i) = []).
  { intros i [<-|[<-|[]]]; cbn [it_file]; (split; [|apply blank_none; unfold legal; lia]).
    - rewrite two_six. discriminate.
    - rewrite two_five. intros E. apply (f_equal zlen) in E. rewrite zlen_zeros in E by lia. discriminate E. }
  assert (HT : total two_disk two_items <= free_on (map_disk ex_map)) by (rewrite two_total, blank_free; lia).
  assert (HM : forall i, In i two_items -> no_mark (file_on two_disk (it_file i))).
  { intros i [<-|[<-|[]]]; cbn [it_file]; [rewrite two_six; apply no_mark_repeat; lia|].
    rewrite two_five. intros j Hj. destruct (Z_lt_ge_dec (256 * j + 3) 256) as [Hlt|Hge]; [rewrite znth_zeros by lia; lia|rewrite znth_overflow; [lia|rewrite zlen_zeros by lia; lia]]. }
  assert (Hd : s2b "x.do" <> s2b "-") by discriminate.
  destruct (restore_unmarked iter fuel (s2b "auto") (s2b "x.do") (s2b "do") false 0 two_disk two_items w c (map_disk ex_map) Hd (first_do) two_len W1 Hc W4 W5 HG HN HF HT R HM) as [HU HU'].
  exists c0, c, w. do 13 (split; [assumption|]). split.
  - exact blank_none.
  - intros f Hl. split; [intros Hne|intros (i & Hin & <-); exact (proj1 (HF i Hin))]. destruct (Z.eq_dec f 5) as [->|H5]; [exists (Item 5 (s2b "5") (s2b "g")); split; [right; left; reflexivity|reflexivity]|].
    destruct (Z.eq_dec f 6) as [->|H6]; [exists (Item 6 (s2b "DF06") (s2b "f")); split; [left; reflexivity|reflexivity]|].
    contradiction (Hne (two_none f H5 H6 Hl)).
Qed.
