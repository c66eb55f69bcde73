(** LocalExProofs.v -- disks damaged where nobody looks. *)
From Coq Require Import ZifyBool ZifyNat.
From Verif Require Import GoBase GoLemmas TypesModel DiskModel DiskSpec DiskProofs.
From Verif Require Import SupermonModel SupermonSpec SupermonTableSpec SupermonProofs SupermonOpProofs SupermonNameProofs.
From Verif Require Dos3Model Dos3Spec Dos3Proofs Dos3StmtProofs ProdosSpec ProdosStmtProofs.
From Verif Require Import CmdModel CmdSpec NakedCmdSpec NakedCmdProofs NakedOpenProofs NakedExProofs DetectSpec DetectProofs PrintProofs SessionProofs LocalSpec LocalProofs.
Ltac Zify.zify_post_hook ::= Z.div_mod_to_equations.
Local Opaque zrange zeros sub.

Lemma reach_in good d p l q : Dos3Spec.chain good d p l -> reaches good d p q -> In q l.
Proof.
  intros C [N [m P]]. revert l C. induction P as [p|t s m q Np g _ IH]; intros l C.
  - destruct C as [|t s l _ _ _]; [contradiction (N eq_refl)|left; reflexivity].
  - remember (t, s) as p eqn:E. destruct C as [|t' s' l _ _ C]; [contradiction (Np eq_refl)|]. injection E as -> ->. right. exact (IH N l C).
Qed.

(** ** DOS 3.3: the boot sector and the contents of DATA overwritten *)
Import Dos3StmtProofs.
Definition hurt_dos : bytes := put (put ex_dos_disk 18 12 (repeat 7 256)) 0 0 (repeat 9 256).
Lemma hurt_len : zlen hurt_dos = 143360.
Proof. vm_compute. reflexivity. Qed.
Lemma hurt_ok : bytes_ok hurt_dos.
Proof. apply bytes_ok_forallb. vm_compute. reflexivity. Qed.
Lemma hurt_sectors : Forall (same_sector ex_dos_disk hurt_dos) [(17, 0); (17, 15); (17, 14); (18, 15); (18, 14)].
Proof.
  assert (forallb (fun q => beq (sector ex_dos_disk (fst q) (snd q)) (sector hurt_dos (fst q) (snd q))) [(17, 0); (17, 15); (17, 14); (18, 15); (18, 14)] = true) as F by (vm_compute; reflexivity).
  rewrite forallb_forall in F. apply Forall_forall. intros q Hq. apply beq_eq. exact (F q Hq).
Qed.
Lemma dos_len : zlen ex_dos_disk = 143360.
Proof. vm_compute. reflexivity. Qed.
Lemma hurt_agree : agree ex_dos_disk hurt_dos (s2b "do") (s2b "dos3") ex_dos_disk hurt_dos.
Proof.
  constructor; [exact (reordered_self _ _ _ dos_len il_do)|exact (reordered_self _ _ _ hurt_len il_do)|].
  intros q Hq. pose proof hurt_sectors as F. rewrite Forall_forall in F. apply F.
  destruct Hq as [->|[_ R]]; [left; reflexivity|]. apply (reach_in _ _ _ _ _ (proj2 (proj2 ex_catalog))) in R. destruct R as [<-|[<-|[]]]; cbn [In]; auto.
Qed.
Definition hello_slot : bytes := Dos3Spec.slot (sector ex_dos_disk 17 15) 0.
Lemma hello_lookup : Dos3Spec.lookup (Dos3Spec.entries ex_dos_disk [(17, 15); (17, 14)]) (s2b "HELLO") hello_slot.
Proof.
  exists [], (tl (Dos3Spec.entries ex_dos_disk [(17, 15); (17, 14)])). split; [vm_compute; reflexivity|]. split; [vm_compute; reflexivity|]. split; [|intros x []].
  apply Dos3Proofs.live_name_iff; vm_compute; reflexivity.
Qed.
Lemma hello_chain : Dos3Spec.chain (Dos3Spec.in_image ex_dos_disk) ex_dos_disk (18, 15) [(18, 15)].
Proof.
  constructor; [discriminate|unfold Dos3Spec.in_image; rewrite dos_len; unfold offset; lia|].
  assert (Dos3Spec.link ex_dos_disk 18 15 = (0, 0)) as -> by (vm_compute; reflexivity). constructor.
Qed.
Lemma hello_pairs : Dos3Spec.pairs (sector ex_dos_disk 18 15) = (18, 14) :: repeat (0, 0) 121.
Proof. vm_compute. reflexivity. Qed.
Lemma hurt_hello : same_file ex_dos_disk hurt_dos (s2b "HELLO") (s2b "dos3").
Proof.
  constructor. intros q (l & e & C & L & H). pose proof hurt_sectors as F. rewrite Forall_forall in F. apply F.
  assert (l = [(17, 15); (17, 14)]) as -> by exact (Dos3Proofs.chain_det _ _ _ _ (proj2 (proj2 C)) _ (proj2 (proj2 ex_catalog))).
  assert (e = hello_slot) as -> by exact (Dos3Proofs.lookup_unique _ _ _ _ L hello_lookup).
  assert (znth 0 hello_slot 0 = 18 /\ znth 0 hello_slot 1 = 15) as [E0 E1] by (vm_compute; split; reflexivity). rewrite E0, E1 in H.
  destruct H as [H|(r & H & N & Hi)].
  - apply (reach_in _ _ _ _ _ hello_chain) in H. destruct H as [<-|[]]. cbn [In]. auto 8.
  - apply (reach_in _ _ _ _ _ hello_chain) in H. destruct H as [<-|[]]. cbn [fst snd] in Hi. rewrite hello_pairs in Hi.
    destruct Hi as [<-|Hi]; [cbn [In]; auto 8|]. apply repeat_spec in Hi. contradiction (N Hi).
Qed.
Lemma hurt_data : Dos3Spec.lookup (Dos3Spec.entries ex_dos_disk [(17, 15); (17, 14)]) (s2b "DATA") (Dos3Spec.slot (sector ex_dos_disk 17 15) 2) /\
  sector ex_dos_disk 18 12 <> sector hurt_dos 18 12.
Proof.
  split; [|vm_compute; discriminate].
  exists (firstn 2 (Dos3Spec.entries ex_dos_disk [(17, 15); (17, 14)])), (skipn 3 (Dos3Spec.entries ex_dos_disk [(17, 15); (17, 14)])).
  split; [vm_compute; reflexivity|]. split; [vm_compute; reflexivity|]. split; [apply Dos3Proofs.live_name_iff; vm_compute; reflexivity|].
  intros x Hx Hl Hn. apply (Dos3Proofs.live_name_iff _ _ Hl) in Hn.
  assert (Forall (fun x => Dos3Spec.is_live x = true -> Dos3Model.FilenameString (Dos3CodecProofs.fd_of x) <> s2b "DATA")
    (firstn 2 (Dos3Spec.entries ex_dos_disk [(17, 15); (17, 14)]))) as F.
  { constructor; [intros _; vm_compute; discriminate|]. constructor; [vm_compute; discriminate|]. constructor. }
  rewrite Forall_forall in F. exact (F x Hx Hl Hn).
Qed.

(** ** ProDOS: a block of a file overwritten *)
Import ProdosStmtProofs.
Lemma part_of_vol key b : prodos_part ex_vol key b -> if key then In b [2; 7; 9] else In b [3; 8].
Proof.
  assert (Forall (fun b => In (ProdosSpec.next_block ex_vol b) [0; 3; 8]) [2; 7; 9; 3; 8]) as N.
  { apply Forall_forall. intros c Hb. assert (map (ProdosSpec.next_block ex_vol) [2; 7; 9; 3; 8] = [3; 8; 0; 0; 0]) as E by (vm_compute; reflexivity).
    apply (in_map (ProdosSpec.next_block ex_vol)) in Hb. rewrite E in Hb. cbn [In] in Hb |- *. lia. }
  assert (map ProdosSpec.key_pointer (filter ProdosSpec.is_subdir (flat_map (fun b => ProdosSpec.key_slots (ProdosSpec.blk ex_vol b)) [2; 7; 9] ++
            flat_map (fun b => ProdosSpec.later_slots (ProdosSpec.blk ex_vol b)) [3; 8])) = [7; 9]) as K by (vm_compute; reflexivity).
  rewrite Forall_forall in N. induction 1 as [|key b _ IH _ Hn|key b e _ IH _ He Hs].
  - left. reflexivity.
  - assert (In b [2; 7; 9; 3; 8]) as Hb by (destruct key; cbn [In] in IH |- *; lia). specialize (N b Hb). cbn [In] in N |- *. lia.
  - assert (In (ProdosSpec.key_pointer e) [7; 9]) as Hk.
    { rewrite <- K. apply in_map. apply filter_In. split; [|exact Hs]. apply in_or_app. destruct key; [left|right]; apply in_flat_map; exists b; split; assumption. }
    cbn [In] in Hk |- *. lia.
Qed.
Definition hurt_vol : bytes := putb ex_vol 20 (repeat 7 512).
Lemma hurt_vol_len : zlen hurt_vol = 143360.
Proof. vm_compute. reflexivity. Qed.
Lemma vol_len : zlen ex_vol = 143360.
Proof. vm_compute. reflexivity. Qed.
Lemma hurt_vol_ok : bytes_ok hurt_vol.
Proof. apply bytes_ok_forallb. vm_compute. reflexivity. Qed.
Lemma hurt_dirs : same_directories ex_vol hurt_vol.
Proof.
  intros key b P. apply part_of_vol in P. assert (In b [2; 7; 9; 3; 8]) as Hb by (destruct key; cbn [In] in P |- *; lia). clear P.
  assert (Forall (fun b => ProdosSpec.blk ex_vol b = ProdosSpec.blk hurt_vol b) [2; 7; 9; 3; 8]) as F.
  { assert (forallb (fun b => beq (ProdosSpec.blk ex_vol b) (ProdosSpec.blk hurt_vol b)) [2; 7; 9; 3; 8] = true) as F by (vm_compute; reflexivity).
    rewrite forallb_forall in F. apply Forall_forall. intros q Hq. apply beq_eq. exact (F q Hq). }
  rewrite Forall_forall in F. exact (F b Hb).
Qed.
(** Images that agree on a track agree on it in any order. *)
Lemma track_same c c' o so d d' t : (forall s, 0 <= s < 16 -> sector c t s = sector c' t s) -> reordered c o so d -> reordered c' o so d' -> 0 <= t < 35 ->
  forall s, 0 <= s < 16 -> sector d t s = sector d' t s.
Proof.
  intros H R R' Ht s Hs. apply reordered_back in R, R'. destruct R as (_ & _ & lf & lt & If & It & R). destruct R' as (_ & _ & lf' & lt' & If' & It' & R').
  assert (exists s', 0 <= s' < 16 /\ znth 0 lf s = znth 0 lt s') as (s' & Hs' & E).
  { assert (forall l v, (l = do_interleave \/ l = po_interleave \/ l = raw_interleave) -> 0 <= v < 16 -> exists j, 0 <= j < 16 /\ v = znth 0 l j) as X.
    { intros l v Hl Hv. assert (In v l) as Hin.
      { assert (forall v, 0 <= v < 16 -> In v (zrange 16)) as Y by (intros; apply In_zrange; assumption). specialize (Y v Hv).
        assert (Forall (fun v => In v l) (zrange 16)) as F; [|rewrite Forall_forall in F; exact (F v Y)].
        destruct Hl as [->|[->| ->]]; apply Forall_forall; intros u Hu; apply In_zrange in Hu; unfold do_interleave, po_interleave, raw_interleave; cbn [In]; lia. }
      destruct (In_nth l v 0 Hin) as (j & Hj & E). exists (Z.of_nat j). split.
      - destruct Hl as [->|[->| ->]]; cbn in Hj; lia.
      - unfold znth. destruct (Z.of_nat j <? 0) eqn:En; [lia|]. rewrite Nat2Z.id. symmetry. exact E. }
    apply X; [destruct It; auto|].
    assert (Forall (fun v => 0 <= v < 16) lf) as F by (destruct If; repeat constructor; lia). rewrite Forall_forall in F. apply F.
    unfold znth. destruct (s <? 0) eqn:En; [lia|]. apply nth_In. destruct If; cbn; lia. }
  pose proof (R t s s' Ht Hs Hs' E) as E1.
  assert (lf' = lf) as -> by (destruct If; inversion If'; reflexivity). assert (lt' = lt) as -> by (destruct It; inversion It'; reflexivity).
  pose proof (R' t s s' Ht Hs Hs' E) as E2. rewrite <- E1, <- E2. apply H. exact Hs'.
Qed.
Lemma map_sectors (d : bytes) : zlen d = 143360 -> stored_map d = sub (sector d 0 9) 208 256 ++ sector d 0 10 ++ sector d 0 11.
Proof.
  intros L. change (sector d 0 9) with (sub d 2304 2560). change (sector d 0 10) with (sub d 2560 2816). change (sector d 0 11) with (sub d 2816 3072).
  rewrite sub_sub by lia. change (2304 + 208) with 2512. change (2304 + 256) with 2560. unfold stored_map.
  rewrite (sub_app_split d 2512 2560 3072), (sub_app_split d 2560 2816 3072) by lia. reflexivity.
Qed.
Lemma map_same c c' o so d d' : (forall s, 0 <= s < 16 -> sector c 0 s = sector c' 0 s) -> reordered c o so d -> reordered c' o so d' -> stored_map d = stored_map d'.
Proof.
  intros H R R'. pose proof (track_same _ _ _ _ _ _ 0 H R R' ltac:(lia)) as K. destruct R as (_ & L & _). destruct R' as (_ & L' & _).
  rewrite (map_sectors d L), (map_sectors d' L'), !K by lia. reflexivity.
Qed.
Lemma only_vtoc c c' o d d' : release_byte c <> 3 -> (forall s, 0 <= s < 16 -> sector c 17 s = sector c' 17 s) ->
  reordered c o (s2b "do") d -> reordered c' o (s2b "do") d' -> forall q, dos_part d q -> same_sector d d' q.
Proof.
  intros N H R R' q [->|[G _]].
  - unfold same_sector. cbn [fst snd]. apply (track_same _ _ _ _ _ _ 17 H R R'); lia.
  - contradiction N. rewrite <- (release_same _ _ _ _ R). exact (Dos3Spec.gv_release _ G).
Qed.
Lemma tracks_check c c' t : forallb (fun s => beq (sector c t s) (sector c' t s)) (zrange 16) = true -> forall s, 0 <= s < 16 -> sector c t s = sector c' t s.
Proof. intros F s Hs. rewrite forallb_forall in F. apply beq_eq, F, In_zrange. exact Hs. Qed.
Lemma vol_tracks : (forall s, 0 <= s < 16 -> sector ex_vol 0 s = sector hurt_vol 0 s) /\ (forall s, 0 <= s < 16 -> sector ex_vol 17 s = sector hurt_vol 17 s).
Proof. split; apply tracks_check; vm_compute; reflexivity. Qed.
Lemma vol_release : release_byte ex_vol <> 3.
Proof. vm_compute. discriminate. Qed.
Lemma vol_agree : agree ex_vol hurt_vol (s2b "po") (s2b "prodos") ex_vol hurt_vol.
Proof.
  pose proof vol_tracks as [T0 T17]. pose proof vol_release as V. pose proof vol_len as L. pose proof hurt_vol_len as L'. pose proof hurt_dirs as D.
  remember ex_vol as v eqn:Ev. remember hurt_vol as h eqn:Eh. clear Ev Eh.
  destruct (reordered_ex v (s2b "po") (s2b "do") L (ex_intro _ _ il_po) (ex_intro _ _ il_do)) as [d0 R0].
  destruct (reordered_ex v (s2b "po") (s2b "raw") L (ex_intro _ _ il_po) (ex_intro _ _ il_raw)) as [d1 R1].
  destruct (reordered_ex h (s2b "po") (s2b "do") L' (ex_intro _ _ il_po) (ex_intro _ _ il_do)) as [e0 S0].
  destruct (reordered_ex h (s2b "po") (s2b "raw") L' (ex_intro _ _ il_po) (ex_intro _ _ il_raw)) as [e1 S1].
  apply (ag_prodos _ _ _ d0 e0 d1 e1); [exact R0|exact S0|exact (only_vtoc _ _ _ _ _ V T17 R0 S0)|exact R1|exact S1|exact (map_same _ _ _ _ _ _ T0 R1 S1)|exact (reordered_self _ _ _ L il_po)|exact (reordered_self _ _ _ L' il_po)|exact D].
Qed.
Lemma vol_differs : sub ex_vol 10240 10752 <> sub hurt_vol 10240 10752.
Proof. vm_compute. discriminate. Qed.

(** ** NakedOS: a free sector overwritten *)
Definition hurt_naked : bytes := upd (map_disk five_map) 25600 (repeat 1 256).
Lemma five_len : zlen (map_disk five_map) = 143360.
Proof. exact (fl_len _ _ five_floppy). Qed.
Lemma hurt_naked_len : zlen hurt_naked = 143360.
Proof. unfold hurt_naked. rewrite zlen_upd; rewrite ?five_len; [reflexivity|lia|cbn; lia]. Qed.
Lemma naked_map : stored_map hurt_naked = stored_map (map_disk five_map).
Proof. unfold stored_map, hurt_naked. apply sub_upd_before; rewrite ?five_len; [lia|lia|cbn; lia]. Qed.
Lemma hurt_floppy : floppy hurt_naked five_map.
Proof. constructor; [exact hurt_naked_len|exact (fl_ver _ _ five_floppy)|rewrite naked_map; exact (fl_map _ _ five_floppy)]. Qed.
Lemma hurt_naked_bytes : bytes_ok hurt_naked.
Proof. apply bytes_ok_forallb. vm_compute. reflexivity. Qed.
Lemma naked_tracks : (forall s, 0 <= s < 16 -> sector (map_disk five_map) 0 s = sector hurt_naked 0 s) /\ (forall s, 0 <= s < 16 -> sector (map_disk five_map) 17 s = sector hurt_naked 17 s).
Proof. split; apply tracks_check; vm_compute; reflexivity. Qed.
Lemma naked_differs : sec (map_disk five_map) 100 <> sec hurt_naked 100.
Proof. vm_compute. discriminate. Qed.
Lemma naked_free : owned five_map 3 = [] /\ owned five_map 4 = [].
Proof. split; vm_compute; reflexivity. Qed.
Lemma free_hundred : znth 0 five_map 100 = FREE.
Proof. vm_compute. reflexivity. Qed.
Lemma naked_agree : exists c c', seen_as (s2b "x.do") (s2b "auto") c (s2b "nakedos") (map_disk five_map) (s2b "do") /\ bytes_ok c /\ bytes_ok c' /\
  agree c c' (s2b "do") (s2b "nakedos") (map_disk five_map) hurt_naked /\
  same_file (map_disk five_map) hurt_naked (s2b "DF05") (s2b "nakedos").
Proof.
  destruct (do_image _ _ five_floppy) as [c [R Hf]]. destruct (do_image _ _ hurt_floppy) as [c' [R' Hf']]. exists c, c'.
  pose proof naked_tracks as [T0 T17]. pose proof five_floppy as F5.
  assert (Hrel : release_byte c <> 3).
  { rewrite <- (release_same _ _ _ _ R). unfold release_byte. rewrite map_disk_sector by reflexivity. rewrite znth_zeros; lia. }
  assert (B : bytes_ok c) by exact (reordered_bytes _ _ _ _ (reordered_back _ _ _ _ R) map_disk_bytes).
  assert (B' : bytes_ok c') by exact (reordered_bytes _ _ _ _ (reordered_back _ _ _ _ R') hurt_naked_bytes).
  assert (C17 : forall s, 0 <= s < 16 -> sector c 17 s = sector c' 17 s) by (apply (track_same _ _ _ _ _ _ 17 T17 (reordered_back _ _ _ _ R) (reordered_back _ _ _ _ R')); lia).
  assert (L : zlen c = 143360) by apply R. assert (L' : zlen c' = 143360) by apply R'.
  pose proof (fl_map _ _ five_floppy) as M. pose proof naked_map as M'. pose proof free_hundred as F100. pose proof naked_free as [N3 N4].
  assert (K : forall k, znth 0 five_map k <> FREE -> 0 <= k < 560 -> sec (map_disk five_map) k = sec hurt_naked k).
  { intros k N Hk. assert (E1 : zlen (repeat 1 256) = 256) by reflexivity. unfold sec, hurt_naked. assert (k <> 100) by (intros ->; exact (N F100)). symmetry.
    destruct (Z_lt_dec k 100); [apply sub_upd_before|apply sub_upd_after]; rewrite ?five_len, ?E1; lia. }
  remember (map_disk five_map) as d eqn:Ed. remember hurt_naked as d' eqn:Ed'. clear Ed Ed'.
  destruct (reordered_ex c (s2b "do") (s2b "do") L (ex_intro _ _ il_do) (ex_intro _ _ il_do)) as [d0 R0].
  destruct (reordered_ex c' (s2b "do") (s2b "do") L' (ex_intro _ _ il_do) (ex_intro _ _ il_do)) as [e0 S0].
  split; [|split; [exact B|split; [exact B'|split]]].
  - apply (sa_floppy _ _ _ [] _ []); [exact L|exact B|exact auto_do|constructor|].
    apply (ra_naked _ _ d0); [exact R0|apply (not_dos_release _ _ _ R0 Hrel)|exact R|exact Hf].
  - apply (ag_naked _ _ _ d0 e0); [exact R0|exact S0|exact (only_vtoc _ _ _ _ _ Hrel C17 R0 S0)|exact R|exact R'|symmetry; exact M'|].
    intros k [H|H]; rewrite M in H; [rewrite N3 in H|rewrite N4 in H]; destruct H.
  - constructor. intros k (t & f & _ & Hr & Ho). rewrite M in Ho. apply In_owned in Ho. destruct Ho as [Hk Ho]. apply K; [|exact Hk].
    apply resolves_legal in Hr. unfold legal in Hr. rewrite Ho. unfold FREE. lia.
Qed.

(** ** The examples of the property *)
Lemma local_dos : seen_as (s2b "x.dsk") (s2b "auto") ex_dos_disk (s2b "dos3") ex_dos_disk (s2b "do") /\
  first_order (s2b "x.dsk") (s2b "auto") (s2b "do") /\ bytes_ok ex_dos_disk /\ bytes_ok hurt_dos /\
  agree ex_dos_disk hurt_dos (s2b "do") (s2b "dos3") ex_dos_disk hurt_dos /\
  same_file ex_dos_disk hurt_dos (s2b "HELLO") (s2b "dos3") /\
  Dos3Spec.lookup (Dos3Spec.entries ex_dos_disk [(17, 15); (17, 14)]) (s2b "DATA") (Dos3Spec.slot (sector ex_dos_disk 17 15) 2) /\
  sector ex_dos_disk 18 12 <> sector hurt_dos 18 12.
Proof. exact (conj ex_seen_dos (conj (ex_intro _ _ auto_dsk) (conj ex_dos_disk_ok (conj hurt_ok (conj hurt_agree (conj hurt_hello hurt_data)))))). Qed.
Lemma local_prodos : seen_as (s2b "x.po") (s2b "auto") ex_vol (s2b "prodos") ex_vol (s2b "po") /\
  first_order (s2b "x.po") (s2b "auto") (s2b "po") /\ bytes_ok ex_vol /\ bytes_ok hurt_vol /\
  agree ex_vol hurt_vol (s2b "po") (s2b "prodos") ex_vol hurt_vol /\ sub ex_vol 10240 10752 <> sub hurt_vol 10240 10752.
Proof. exact (conj ex_seen_prodos (conj (ex_intro _ _ auto_po) (conj (ProdosSpec.wf_bytes _ _ ex_vol_ok) (conj hurt_vol_ok (conj vol_agree vol_differs))))). Qed.
Lemma local_naked : exists c c', seen_as (s2b "x.do") (s2b "auto") c (s2b "nakedos") (map_disk five_map) (s2b "do") /\
  first_order (s2b "x.do") (s2b "auto") (s2b "do") /\ bytes_ok c /\ bytes_ok c' /\
  agree c c' (s2b "do") (s2b "nakedos") (map_disk five_map) hurt_naked /\
  same_file (map_disk five_map) hurt_naked (s2b "DF05") (s2b "nakedos") /\ sec (map_disk five_map) 100 <> sec hurt_naked 100.
Proof.
  destruct naked_agree as (c & c' & H1 & H2 & H3 & H4 & H5). exists c, c'.
  exact (conj H1 (conj (ex_intro _ _ auto_do) (conj H2 (conj H3 (conj H4 (conj H5 naked_differs)))))).
Qed.
