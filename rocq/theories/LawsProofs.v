(** LawsProofs.v -- the exact effect of WriteFile, and laws that follow from it (C101, C104). *)
From Coq Require Import ZifyBool ZifyNat.
From Verif Require Import GoBase GoLemmas CodecLemmas TypesModel DiskModel DiskSpec DiskProofs DiskOpenProofs.
From Verif Require Import SupermonModel SupermonSpec SupermonTableSpec SupermonStoreSpec SupermonProofs SupermonSymProofs SupermonTabProofs SupermonLinkProofs SupermonOpProofs SupermonNameProofs SupermonFinalProofs SupermonNamedProofs SupermonStmtProofs.
From Verif Require Import ProdosModel CmdModel CmdSpec CmdProofs CmdStmtProofs NakedCmdSpec NakedCmdProofs NakedOpenProofs DetectSpec DetectProofs PrintProofs ListSpec OpenFuelProofs AfterProofs AfterRmProofs AfterExProofs ReorderProofs MainModel SessionSpec SessionProofs LawsSpec.
Ltac Zify.zify_post_hook ::= Z.div_mod_to_equations.
Local Opaque zrange zeros sub.

(** ** The exact effect of WriteFile: the first sectors that are free or the file's own *)
Definition available (sm : bytes) (f : Z) : list Z :=
  filter (fun k => (znth 0 sm k =? FREE) || (znth 0 sm k =? f)) (zrange 560).
Definition taken (sm : bytes) (f : Z) (c : bytes) : list Z := firstn (Z.to_nat (nsec c)) (available sm f).

Lemma WriteFile_exact f c ow (d sm d' sm' : bytes) ex : floppy d sm -> legal f -> c <> [] ->
  WriteFile f c ow (d, sm) = ((d', sm'), Ok ex) ->
  zlen d' = 143360 /\ zlen sm' = 560 /\ stored_map d' = sm' /\ zlen (taken sm f c) = nsec c /\
  (forall k, 0 <= k < 560 -> znth 0 sm' k = if memb k (taken sm f c) then f else if znth 0 sm k =? f then FREE else znth 0 sm k) /\
  flat_map (sec d') (taken sm f c) = padded c /\
  (forall k, 0 <= k < 560 -> ~ (9 <= k <= 11) -> ~ In k (taken sm f c) -> sec d' k = sec d k) /\
  sub d' 2304 2512 = sub d 2304 2512.
Proof.
  intros [Hd Hv Hm] Hf Hc E. pose proof (v_len _ Hv) as Hl. unfold legal in Hf.
  pose proof (WriteFile_success f c ow d sm d' sm' ex ltac:(constructor; assumption) Hf Hc E) as (Fl' & _ & _ & _ & _ & _ & _ & _ & Hpre).
  unfold WriteFile in E. rewrite FreeSectors_owned in E by exact Hl.
  rewrite SectorsForFile_owned, zlen_map in E. rewrite padded_cts in E. fold (nsec c) in E.
  destruct (_ <? nsec c) eqn:Esp in E; [discriminate E|]. destruct (_ && _) in E; [discriminate E|].
  remember (if 0 <? zlen (owned sm f) then SMDelete sm f else sm) as sm1 eqn:E1.
  assert (zlen sm1 = 560) as Hl1 by (rewrite E1; destruct (0 <? _); rewrite ?zlen_SMDelete; exact Hl).
  assert (forall k, 0 <= k < 560 -> znth 0 sm1 k = if znth 0 sm k =? f then FREE else znth 0 sm k) as Hk1.
  { intros k Hk. rewrite E1. destruct (0 <? zlen (owned sm f)) eqn:Eo.
    - rewrite znth_SMDelete by lia. reflexivity.
    - destruct (Z.eqb_spec (znth 0 sm k) f) as [X|X]; [|reflexivity]. exfalso.
      assert (In k (owned sm f)) as Hin by (apply In_owned; lia).
      assert (owned sm f = []) as Hn by (apply zlen_zero_nil; pose proof (zlen_nonneg (owned sm f)); lia). rewrite Hn in Hin. destruct Hin. }
  assert (filter (fun k => znth 0 sm1 k =? FREE) (zrange 560) = available sm f) as Hav.
  { unfold available. apply filter_ext_in. intros k Hk. apply In_zrange in Hk. rewrite Hk1 by exact Hk.
    destruct (Z.eqb_spec (znth 0 sm k) f) as [X|X]; [rewrite orb_true_r; reflexivity|rewrite orb_false_r; reflexivity]. }
  assert (0 < nsec c) as Hn.
  { unfold nsec. destruct c as [|x c']; [congruence|]. rewrite zlen_cons. pose proof (zlen_nonneg c'). lia. }
  assert (zlen (available sm f) = zlen (owned sm FREE) + zlen (owned sm f)) as Hla.
  { unfold available, owned. apply zlen_filter_or. intros k _. unfold FREE. lia. }
  destruct (WriteFile_loop_spec f (nsec c) (padded c) Hf (zlen_padded c) (zrange 560) 0 d sm1)
    as (d2 & sm2 & Er & Ld2 & Lsm2 & Hsm2 & Hflat & Hother & _).
  { apply NoDup_zrange. } { intros k Hk. apply In_zrange in Hk. exact Hk. }
  { exact Hd. } { exact Hl1. } { lia. } { rewrite Hav. lia. }
  rewrite Hav, Z.sub_0_r in Hsm2, Hflat, Hother. fold (taken sm f c) in Hsm2, Hflat, Hother.
  rewrite all_ts_eq, Er in E. rewrite Persist_ok in E by lia. injection E as <- <- _.
  assert (forall k, In k (taken sm f c) -> 12 <= k < 560) as Hgot.
  { intros k Hk. apply In_firstn in Hk. unfold available in Hk. apply filter_In in Hk as [Hk1' Hk2]. apply In_zrange in Hk1'.
    destruct (Z.ltb_spec k 12); [|lia]. rewrite (v_res _ Hv k) in Hk2 by lia. unfold FREE, RESERVED in Hk2. lia. }
  assert (forall k, 0 <= k < 560 -> ~ (9 <= k <= 11) -> sec (upd d2 2512 sm2) k = sec d2 k) as Hsec3.
  { intros k Hk Hk9. apply sec_upd_other; lia. }
  split; [rewrite zlen_upd; lia|]. split; [exact Lsm2|]. split; [exact (fl_map _ _ Fl')|].
  split; [apply zlen_firstn; lia|].
  split; [intros k Hk; rewrite Hsm2 by exact Hk; rewrite Hk1 by exact Hk; reflexivity|].
  split.
  { transitivity (flat_map (sec d2) (taken sm f c)).
    - clear - Hsec3 Hgot. induction (taken sm f c) as [|k got IH]; [reflexivity|].
      cbn [flat_map]. rewrite IH by (intros; apply Hgot; right; assumption).
      rewrite Hsec3; [reflexivity| |]; specialize (Hgot k (or_introl eq_refl)); lia.
    - rewrite Hflat. rewrite Z.mul_0_l. rewrite Z.mul_comm, <- (zlen_padded c). apply sub_full. }
  split; [|exact Hpre].
  intros k Hk H9 Hnin. rewrite Hsec3 by assumption. apply Hother; assumption.
Qed.

(** ** Images are their sectors *)
Lemma same_sectors d d' : zlen d = 143360 -> zlen d' = 143360 ->
  (forall k, 0 <= k < 560 -> sec d' k = sec d k) -> d' = d.
Proof.
  intros H H' Hs. apply (znth_ext 0); [lia|]. intros j Hj.
  assert (forall x, zlen x = 143360 -> znth 0 x j = znth 0 (sec x (j / 256)) (j mod 256)) as G.
  { intros x Hx. unfold sec. rewrite znth_sub by lia. f_equal. lia. }
  rewrite (G d H), (G d' H'), Hs by lia. reflexivity.
Qed.
Lemma same_system d d' k : zlen d = 143360 -> zlen d' = 143360 -> sub d' 2304 2512 = sub d 2304 2512 -> stored_map d' = stored_map d ->
  9 <= k <= 11 -> sec d' k = sec d k.
Proof.
  intros H H' E1 E2 Hk. unfold stored_map in E2.
  assert (forall x, zlen x = 143360 -> sec x k = sub (sub x 2304 2512 ++ sub x 2512 3072) (256 * k - 2304) (256 * k - 2048)) as G.
  { intros x Hx. rewrite <- sub_app_split by lia. unfold sec. rewrite sub_sub by lia. f_equal; lia. }
  rewrite (G d H), (G d' H'), E1, E2. reflexivity.
Qed.
Lemma flat_same d d' ks : (forall k, In k ks -> zlen (sec d' k) = zlen (sec d k)) -> flat_map (sec d') ks = flat_map (sec d) ks ->
  forall k, In k ks -> sec d' k = sec d k.
Proof.
  induction ks as [|x ks IH]; intros Hl E k Hk; [destruct Hk|]. cbn [flat_map] in E.
  assert (sec d' x = sec d x /\ flat_map (sec d') ks = flat_map (sec d) ks) as [E1 E2].
  { apply app_inj_len; [exact (Hl x (or_introl eq_refl))|exact E]. }
  destruct Hk as [<-|Hk]; [exact E1|]. apply IH; [intros j Hj; apply Hl; right; exact Hj|exact E2|exact Hk].
Qed.

(** ** Writing the same file again *)
Lemma available_after f c ow (d sm d' sm' : bytes) ex : floppy d sm -> legal f -> c <> [] ->
  WriteFile f c ow (d, sm) = ((d', sm'), Ok ex) -> available sm' f = available sm f.
Proof.
  intros Hfl Hf Hc E. destruct (WriteFile_exact f c ow d sm d' sm' ex Hfl Hf Hc E) as (_ & _ & _ & _ & Hk & _).
  unfold available. apply filter_ext_in. intros k Hin. apply In_zrange in Hin. rewrite Hk by exact Hin. unfold legal in Hf.
  destruct (memb k (taken sm f c)) eqn:M.
  - apply memb_In, In_firstn, filter_In in M as [_ M]. rewrite M, Z.eqb_refl. apply orb_true_r.
  - destruct (Z.eqb_spec (znth 0 sm k) f) as [X|X]; [rewrite !orb_true_r; reflexivity|]. rewrite (proj2 (Z.eqb_neq _ _) X). reflexivity.
Qed.
Lemma WriteFile_again f c ow (d sm d' sm' : bytes) ex : floppy d sm -> legal f -> c <> [] ->
  WriteFile f c ow (d, sm) = ((d', sm'), Ok ex) -> WriteFile f c true (d', sm') = ((d', sm'), Ok true).
Proof.
  intros Hfl Hf Hc E. pose proof (available_after _ _ _ _ _ _ _ _ Hfl Hf Hc E) as Ha.
  destruct (WriteFile_success f c ow d sm d' sm' ex Hfl Hf Hc E) as (Fl' & _ & _ & Lo & Lf & _).
  destruct (WriteFile_exact f c ow d sm d' sm' ex Hfl Hf Hc E) as (Ld & Ls & Hm & Lt & Hk & Hflat & Hoth & Hpre).
  assert (0 <= zlen (owned sm' FREE)) as Hz by apply zlen_nonneg.
  destruct (WriteFile_ok f c true d' sm' (fl_len _ _ Fl') (fl_ver _ _ Fl') Hf Hc ltac:(lia) ltac:(reflexivity)) as (d2 & sm2 & E2 & Fl2 & _).
  destruct (WriteFile_exact f c true d' sm' d2 sm2 _ Fl' Hf Hc E2) as (Ld2 & Ls2 & Hm2 & _ & Hk2 & Hflat2 & Hoth2 & Hpre2).
  assert (taken sm' f c = taken sm f c) as Ht by (unfold taken; rewrite Ha; reflexivity). rewrite Ht in *.
  assert (sm2 = sm') as ->.
  { apply (znth_ext 0); [lia|]. intros k Hkk. rewrite Hk2 by lia. destruct (memb k (taken sm f c)) eqn:M; [rewrite Hk, M by lia; reflexivity|].
    destruct (Z.eqb_spec (znth 0 sm' k) f) as [X|X]; [|reflexivity]. exfalso. rewrite Hk, M in X by lia.
    unfold legal, FREE in *. destruct (Z.eqb_spec (znth 0 sm k) f); lia. }
  assert (d2 = d') as ->.
  { apply same_sectors; [exact Ld|exact Ld2|]. intros k Hkk.
    destruct (Z_le_dec 9 k) as [H9|H9]; [destruct (Z_le_dec k 11) as [H11|H11]|].
    - apply same_system; [exact Ld|exact Ld2|exact Hpre2|congruence|lia].
    - destruct (in_dec Z.eq_dec k (taken sm f c)) as [Hin|Hin]; [|apply Hoth2; [exact Hkk|lia|exact Hin]].
      apply (flat_same d' d2 (taken sm f c)); [|congruence|exact Hin].
      intros j Hj. apply In_firstn in Hj. unfold available in Hj. apply filter_In in Hj as [Hj _]. apply In_zrange in Hj.
      unfold sec. rewrite !zlen_sub by lia. reflexivity.
    - destruct (in_dec Z.eq_dec k (taken sm f c)) as [Hin|Hin]; [|apply Hoth2; [exact Hkk|lia|exact Hin]].
      apply (flat_same d' d2 (taken sm f c)); [|congruence|exact Hin].
      intros j Hj. apply In_firstn in Hj. unfold available in Hj. apply filter_In in Hj as [Hj _]. apply In_zrange in Hj.
      unfold sec. rewrite !zlen_sub by lia. reflexivity. }
  rewrite E2. f_equal. f_equal. apply Z.ltb_lt. rewrite Lo. unfold nsec. destruct c as [|x c']; [congruence|]. rewrite zlen_cons. pose proof (zlen_nonneg c'). lia.
Qed.

(** ** Writing a new file and deleting it again *)
Lemma WriteFile_delete f c ow (d sm d' sm' : bytes) ex : floppy d sm -> legal f -> c <> [] -> owned sm f = [] ->
  WriteFile f c ow (d, sm) = ((d', sm'), Ok ex) ->
  SMDelete sm' f = sm /\ forall k, 0 <= k < 560 -> znth 0 sm k <> FREE -> sec (upd d' 2512 (SMDelete sm' f)) k = sec d k.
Proof.
  intros Hfl Hf Hc Ho E. destruct (WriteFile_exact f c ow d sm d' sm' ex Hfl Hf Hc E) as (Ld & Ls & Hm & Lt & Hk & Hflat & Hoth & Hpre).
  pose proof (v_len _ (fl_ver _ _ Hfl)) as Hl. pose proof (fl_len _ _ Hfl) as Hd.
  assert (forall k, 0 <= k < 560 -> znth 0 sm k <> f) as Hnf.
  { intros k Hkk X. assert (In k (owned sm f)) as Hin by (apply In_owned; lia). rewrite Ho in Hin. destruct Hin. }
  assert (forall k, In k (taken sm f c) -> znth 0 sm k = FREE) as Htk.
  { intros k Hin. apply In_firstn in Hin. unfold available in Hin. apply filter_In in Hin as [H1 H2]. apply In_zrange in H1. specialize (Hnf k H1). lia. }
  assert (SMDelete sm' f = sm) as Es.
  { apply (znth_ext 0); [rewrite zlen_SMDelete; lia|]. rewrite zlen_SMDelete. intros k Hkk. rewrite znth_SMDelete by lia. rewrite Hk by lia.
    destruct (memb k (taken sm f c)) eqn:M.
    - rewrite Z.eqb_refl. apply memb_In, Htk in M. rewrite M. reflexivity.
    - pose proof (Hnf k ltac:(lia)) as X. rewrite (proj2 (Z.eqb_neq _ _) X). rewrite (proj2 (Z.eqb_neq _ _) X). reflexivity. }
  split; [exact Es|]. rewrite Es. intros k Hkk Hnfr.
  assert (sub (upd d' 2512 sm) 2304 2512 = sub d 2304 2512) as Hp by (rewrite sub_upd_before by lia; exact Hpre).
  assert (zlen (upd d' 2512 sm) = 143360) as Lu by (rewrite zlen_upd; lia).
  destruct (Z_le_dec 9 k) as [H9|H9]; [destruct (Z_le_dec k 11) as [H11|H11]|].
  - apply same_system; [exact Hd|exact Lu|exact Hp| |lia]. rewrite (fl_map _ _ Hfl). unfold stored_map.
    replace 3072 with (2512 + zlen sm) by lia. apply sub_upd_same; lia.
  - rewrite sec_upd_other by lia. apply Hoth; [exact Hkk|lia|]. intros Hin. apply Hnfr, Htk, Hin.
  - rewrite sec_upd_other by lia. apply Hoth; [exact Hkk|lia|]. intros Hin. apply Hnfr, Htk, Hin.
Qed.

(** ** PutFile by a number or a name in use *)
Lemma PutFile_resolved i ow o f : no_colon (d_name (fi_desc_ i)) -> resolves (st_of o) (d_name (fi_desc_ i)) f ->
  numeric (d_name (fi_desc_ i)) f \/ d_name (fi_desc_ i) = [] \/ (exists six, encodeSymbol (d_name (fi_desc_ i)) = Ok six) ->
  d_type (fi_desc_ i) = FiletypeBinary -> d_length (fi_desc_ i) = zlen (fi_data i) ->
  PutFile i ow o = on_disk (WriteFile f (fi_data i) ow) o.
Proof.
  intros Hnc Hr Hv Ht Hl. unfold PutFile. rewrite Ht, Hl, !Z.eqb_refl. cbn [negb].
  pose proof (resolves_legal _ _ _ Hr) as Hf. unfold legal in Hf.
  destruct (FilesForCompoundName_simple (st_of o) (d_name (fi_desc_ i)) Hnc) as (H1 & H2 & _).
  destruct Hr as [Hn|[Hnn Hs]].
  - rewrite (H1 f Hn). cbn [beq]. cbv zeta. replace (f =? 0) with false by lia.
    replace (f =? 0) with false by lia. unfold sbind.
    destruct (on_disk (WriteFile f (fi_data i) ow) o) as [o1 [b|e|]]; [|reflexivity|reflexivity].
    rewrite andb_false_r. reflexivity.
  - destruct Hv as [Hv|Hv]; [contradiction (Hnn f Hv)|]. rewrite (H2 f Hnn Hs). cbv zeta.
    assert ((if beq (d_name (fi_desc_ i)) [] then Ok tt
             else match op_ST o with
                  | None => Err (EOther "cannot use symbolic names on disks without valid symbol tables")
                  | Some _ => _ <- encodeSymbol (d_name (fi_desc_ i)) ;; Ok tt
                  end) = Ok tt) as ->.
    { destruct Hv as [->|[six ->]]; [reflexivity|].
      destruct (beq (d_name (fi_desc_ i)) []); [reflexivity|].
      destruct (op_ST o) as [t|] eqn:Et; [reflexivity|].
      exfalso. destruct Hs as (_ & k & (Hk & _) & _). unfold st_of in Hk. rewrite Et in Hk.
      rewrite (@zlen_nil Symbol) in Hk. lia. }
    replace (f =? 0) with false by lia. replace (f =? 0) with false by lia. unfold sbind.
    destruct (on_disk (WriteFile f (fi_data i) ow) o) as [o1 [b|e|]]; [|reflexivity|reflexivity].
    rewrite Z.eqb_refl. reflexivity.
Qed.
(** If PutFile succeeded, the name can be encoded. *)
Lemma PutFile_encodes i ow o o' ex f : no_colon (d_name (fi_desc_ i)) -> resolves (st_of o) (d_name (fi_desc_ i)) f -> PutFile i ow o = (o', Ok ex) ->
  numeric (d_name (fi_desc_ i)) f \/ d_name (fi_desc_ i) = [] \/ (exists six, encodeSymbol (d_name (fi_desc_ i)) = Ok six).
Proof.
  intros Hnc Hr E. destruct (FilesForCompoundName_simple (st_of o) (d_name (fi_desc_ i)) Hnc) as (_ & H2 & _).
  destruct Hr as [Hn|[Hnn Hs]]; [left; exact Hn|right]. unfold PutFile in E.
  destruct (negb _) in E; [discriminate E|]. destruct (negb _) in E; [discriminate E|]. rewrite (H2 f Hnn Hs) in E. cbv zeta in E.
  destruct (beq (d_name (fi_desc_ i)) []) eqn:B; [left; apply beq_eq; exact B|right].
  destruct (op_ST o); [|discriminate E]. destruct (encodeSymbol (d_name (fi_desc_ i))) as [six|e|]; [exists six; reflexivity|discriminate E|discriminate E].
Qed.

Lemma reordered_det new new2 o d : naked_image new o d -> naked_image new2 o d -> new2 = new.
Proof. intros [H1 _] [H2 _]. apply reordered_back in H1, H2. exact (reordered_fun _ _ _ _ _ H2 H1). Qed.

Lemma padded_content (d sm : bytes) f : zlen d = 143360 -> padded (content d sm f) = content d sm f.
Proof.
  intros Hd. unfold padded.
  assert (zlen (content d sm f) = 256 * zlen (owned sm f)) as E.
  { unfold content. assert (forall k, In k (owned sm f) -> 0 <= k < 560) as Hk by (intros k Hk; apply In_owned in Hk; lia).
    induction (owned sm f) as [|k l IH]; [reflexivity|]. cbn [flat_map]. rewrite zlen_app, zlen_cons, IH by (intros; apply Hk; right; assumption).
    specialize (Hk k (or_introl eq_refl)). unfold sec. rewrite zlen_sub by lia. lia. }
  pose proof (zlen_nonneg (owned sm f)). replace (256 * nsec (content d sm f) - zlen (content d sm f)) with 0 by (unfold nsec; lia).
  apply app_nil_r.
Qed.

Section Laws.
  Context (iter : list (Z * Subdirectory) -> list (Z * Subdirectory)).

  Lemma put_again fuel order system ft ow addr img tgt src w w' s :
    run (PutCmd_Run iter fuel order system ft ow addr img tgt src) w = (w', Ok tt) ->
    input w src s -> s <> [] ->
    exists c o d t d' new,
      input w img c /\ naked_image c o d /\ (ProdosSpec.an_order iter -> only_seen img order system c o d) /\ names_on d t /\ output w w' img new /\ naked_image new o d' /\
      forall f, no_colon tgt -> resolves t tgt f -> numeric tgt f \/ (f <> 3 /\ f <> 4) ->
      forall order2 system2 addr2 img2 src2 w2, (system2 = s2b "auto" \/ system2 = s2b "nakedos") -> ProdosSpec.an_order iter ->
        seen_as img2 order2 new (s2b "nakedos") d' o -> input w2 img2 new -> img2 <> s2b "-" -> input w2 src2 s ->
        w_room w2 = None -> w_outroom w2 = None -> can_output w2 img2 true ->
        eventually (fun k => exists w3, run (PutCmd_Run iter k order2 system2 ft true addr2 img2 tgt src2) w2 = (w3, Ok tt) /\ output w2 w3 img2 new).
  Proof.
    intros H Hs Hne.
    destruct (put_parts iter fuel _ _ _ _ _ _ _ _ _ _ _ H Hs Hne) as (c & o & op & op2 & ftv & ex & new & Hc & Hopen & Ef & EP & Hout & Hnew).
    destruct (naked_opened iter fuel _ _ _ _ _ _ Hopen) as (_ & Hr & En & Hd & Hre & Hni & Em & Hnm).
    pose proof (reached_ok _ Hre) as Hok.
    exists c, o, (op_data op), (st_of op), (op_data op2), new. split; [exact Hc|]. split; [exact Hni|].
    split; [apply (opened_seen iter fuel); exact Hopen|]. split; [exact Hnm|]. split; [exact Hout|]. split; [exact Hnew|].
    intros f Hnc Hres H34 order2 system2 addr2 img2 src2 w2 Hsys Hi Hseen Hin2 Hid2 Hsrc2 Hrm Hor Hco.
    assert (ftv = FiletypeBinary) as -> by (apply put_binary in EP; exact EP).
    match type of EP with PutFile ?i _ _ = _ =>
      pose proof (PutFile_encodes i _ _ _ _ f Hnc Hres EP) as Henc; cbn [fi_desc_ d_name] in Henc;
      rewrite (PutFile_resolved i _ _ f Hnc Hres Henc eq_refl eq_refl) in EP end. cbn [fi_data] in EP.
    unfold on_disk in EP. destruct (WriteFile f s ow (op_data op, op_SM op)) as [[d1 sm1] [b|e|]] eqn:EW; [|discriminate EP|discriminate EP].
    injection EP as <- _. cbn [op_data] in *.
    pose proof (resolves_legal _ _ _ Hres) as Hf.
    pose proof (WriteFile_again f s ow _ _ _ _ _ (ok_fl _ Hok) Hf Hne EW) as EA.
    destruct (WriteFile_success f s ow _ _ _ _ _ (ok_fl _ Hok) Hf Hne EW) as (Fl1 & _).
    eapply eventually_impl; [|exact (opens iter img2 order2 system2 new (s2b "nakedos") d1 o Hi Hseen Hsys)].
    intros k (op3 & Ho3 & Hop3). inversion Hop3 as [| dd op4 En4 E1 E2|]; subst.
    destruct (NewOperator_ok _ _ (fl_len _ _ Fl1) En4) as (Hok4 & Ed4 & Em4 & _).
    assert (resolves (st_of op4) tgt f) as Hres4.
    { destruct H34 as [Hn|[N3 N4]]; [left; exact Hn|].
      assert (names_on d1 (st_of op)) as Hn1.
      { destruct (WriteFile_cases f s ow _ _ (ok_fl _ Hok) Hf Hne) as [(_ & E)|[(_ & _ & _ & E)|(_ & _ & d2 & sm2 & E & _ & _ & _ & _ & Hoth)]];
          rewrite EW in E; [discriminate E|discriminate E|injection E as <- <- _].
        apply (names_same (op_data op)); [exact (proj2 Hni)|exact (proj2 Hnew)| | |exact Hnm];
          unfold file_on; rewrite (fl_map _ _ Fl1), <- Em; apply Hoth; unfold legal; lia. }
      rewrite (names_det _ _ _ Hn1 (ex_intro _ op4 (conj En4 eq_refl))) in Hres. exact Hres. }
    assert (PutFile (FI (Desc tgt [] 0 0 (zlen s) false FiletypeBinary) s addr2) true op4 = (Op d1 sm1 (op_ST op4), Ok true)) as EP4.
    { match goal with |- PutFile ?i _ _ = _ => rewrite (PutFile_resolved i _ _ f Hnc Hres4 Henc eq_refl eq_refl) end. cbn [fi_data]. unfold on_disk.
      rewrite Ed4, Em4, (fl_map _ _ Fl1), EA. reflexivity. }
    destruct (put_ok_run iter k order2 system2 ft true addr2 img2 tgt src2 w2 s new op4 o _ true Hin2 Hid2 Hsrc2 Hne Ho3 Ef EP4 Hrm Hor Hco) as (w3 & new2 & Er & Hout2 & Hn2).
    cbn [op_data] in Hn2. rewrite (reordered_det _ _ _ _ Hnew Hn2) in Hout2. exists w3. split; [exact Er|exact Hout2].
  Qed.

  (** ** put, then rm *)
  Lemma put_rm fuel order system ft ow addr img tgt src w w' s f :
    run (PutCmd_Run iter fuel order system ft ow addr img tgt src) w = (w', Ok tt) ->
    input w src s -> s <> [] -> numeric tgt f ->
    exists c o d t d' new,
      input w img c /\ naked_image c o d /\ (ProdosSpec.an_order iter -> only_seen img order system c o d) /\ names_on d t /\ output w w' img new /\ naked_image new o d' /\
      (f <> 3 -> f <> 4 -> file_on d f = [] ->
       forall order2 system2 force img2 name w2, (system2 = s2b "auto" \/ system2 = s2b "nakedos") -> ProdosSpec.an_order iter ->
         numeric name f -> (forall i, 0 <= i < zlen t -> equal_fold name (nm t i) = false) ->
         seen_as img2 order2 new (s2b "nakedos") d' o -> input w2 img2 new -> img2 <> s2b "-" ->
         w_room w2 = None -> w_outroom w2 = None -> can_output w2 img2 true ->
         eventually (fun k => exists w3 new2 d2, run (DeleteCmd_Run iter k order2 system2 force img2 name) w2 = (w3, Ok tt) /\
           output w2 w3 img2 new2 /\ naked_image new2 o d2 /\ names_on d2 t /\ stored_map d2 = stored_map d /\
           forall j, 0 <= j < 560 -> znth 0 (stored_map d) j <> FREE -> sec d2 j = sec d j)).
  Proof.
    intros H Hs Hne Hn.
    destruct (put_parts iter fuel _ _ _ _ _ _ _ _ _ _ _ H Hs Hne) as (c & o & op & op2 & ftv & ex & new & Hc & Hopen & Ef & EP & Hout & Hnew).
    destruct (naked_opened iter fuel _ _ _ _ _ _ Hopen) as (_ & Hr & En & Hd & Hre & Hni & Em & Hnm).
    pose proof (reached_ok _ Hre) as Hok.
    exists c, o, (op_data op), (st_of op), (op_data op2), new. split; [exact Hc|]. split; [exact Hni|].
    split; [apply (opened_seen iter fuel); exact Hopen|]. split; [exact Hnm|]. split; [exact Hout|]. split; [exact Hnew|].
    intros N3 N4 Habs order2 system2 force img2 name w2 Hsys Hi Hn2 Hsym Hseen Hin2 Hid2 Hrm Hor Hco.
    assert (ftv = FiletypeBinary) as -> by (apply put_binary in EP; exact EP).
    match type of EP with PutFile ?i _ _ = _ => rewrite (PutFile_numeric i ow op f Hok Hn Hne eq_refl eq_refl) in EP end.
    cbn [fi_data] in EP. unfold on_disk in EP.
    destruct (WriteFile f s ow (op_data op, op_SM op)) as [[d1 sm1] [b|e|]] eqn:EW; [|discriminate EP|discriminate EP].
    injection EP as <- _. cbn [op_data] in *.
    pose proof (proj1 Hn) as Hf.
    assert (owned (op_SM op) f = []) as Ho.
    { apply (content_nil_iff (op_data op)); [exact Hd|]. rewrite Em. exact Habs. }
    destruct (WriteFile_success f s ow _ _ _ _ _ (ok_fl _ Hok) Hf Hne EW) as (Fl1 & _ & _ & Lo1 & _).
    destruct (WriteFile_delete f s ow _ _ _ _ _ (ok_fl _ Hok) Hf Hne Ho EW) as [ES Hsec].
    destruct (Delete_disk d1 sm1 f Fl1 Hf) as (EPer & FlD & CD & OD & OthD & FrD). rewrite ES in *.
    eapply eventually_impl; [|exact (opens iter img2 order2 system2 new (s2b "nakedos") d1 o Hi Hseen Hsys)].
    intros k (op3 & Ho3 & Hop3). inversion Hop3 as [| dd op4 En4 E1 E2|]; subst.
    destruct (NewOperator_ok _ _ (fl_len _ _ Fl1) En4) as (Hok4 & Ed4 & Em4 & _). rewrite (fl_map _ _ Fl1) in Em4.
    assert (forall g, legal g -> g <> f -> content d1 sm1 g = content (op_data op) (op_SM op) g) as Hcts.
    { destruct (WriteFile_cases f s ow _ _ (ok_fl _ Hok) Hf Hne) as [(_ & E)|[(_ & _ & _ & E)|(_ & _ & d2 & sm2 & E & _ & _ & _ & _ & Hoth)]];
        rewrite EW in E; [discriminate E|discriminate E|injection E as <- <- _]. intros g Hg1 Hg2. apply Hoth; assumption. }
    assert (st_of op4 = st_of op) as Est.
    { assert (names_on d1 (st_of op)) as Hn1.
      { apply (names_same (op_data op)); [exact (proj2 Hni)|exact (proj2 Hnew)| | |exact Hnm];
          unfold file_on; rewrite (fl_map _ _ Fl1), <- Em; apply Hcts; unfold legal; lia. }
      exact (names_det _ _ _ (ex_intro _ op4 (conj En4 eq_refl)) Hn1). }
    assert (Delete name op4 = (Op (upd d1 2512 (op_SM op)) (op_SM op) (op_ST op4), Ok true)) as ED.
    { unfold Delete. assert (FileForName (st_of op4) name = Ok f) as -> by (apply FileForName_resolves; left; exact Hn2).
      cbv zeta. rewrite Em4, Ed4, ES, EPer. rewrite SectorsForFile_owned, zlen_map, Lo1.
      assert ((0 <? nsec s) = true) as Hpos.
      { unfold nsec. destruct s as [|x s']; [congruence|]. rewrite zlen_cons. pose proof (zlen_nonneg s'). lia. }
      rewrite Hpos. destruct (op_ST op4) as [t4|] eqn:Et4; [|reflexivity].
      assert (t4 = st_of op) as E4 by (rewrite <- Est; unfold st_of; rewrite Et4; reflexivity).
      unfold DeleteSymbol. pose proof (find_name_spec t4 name 0) as Hfn. destruct (find_name t4 name 0) as [i|]; [|reflexivity].
      exfalso. rewrite Z.sub_0_r in Hfn. destruct Hfn as (I1 & I2 & _). rewrite E4 in I1, I2. rewrite Hsym in I2 by lia. discriminate I2. }
    destruct (rm_ok_run iter k order2 system2 force img2 name w2 new op4 o _ true Hin2 Hid2 Ho3 ED eq_refl Hrm Hor Hco) as (w3 & new2 & Er & Hout2 & Hnew2).
    cbn [op_data] in Hnew2. exists w3, new2, (upd d1 2512 (op_SM op)). split; [exact Er|]. split; [exact Hout2|]. split; [exact Hnew2|].
    pose proof (fl_map _ _ FlD) as EmD.
    split; [|split; [rewrite EmD; exact Em|]].
    - apply (names_same (op_data op)); [exact (proj2 Hni)|exact (proj2 Hnew2)| | |exact Hnm]; unfold file_on; rewrite EmD, <- Em.
      + transitivity (content d1 sm1 3); [apply OthD; [lia|unfold legal; lia]|apply Hcts; [unfold legal; lia|lia]].
      + transitivity (content d1 sm1 4); [apply OthD; [lia|unfold legal; lia]|apply Hcts; [unfold legal; lia|lia]].
    - rewrite <- Em. exact Hsec.
  Qed.

  (** ** dump, then put elsewhere *)
  Lemma copied orderA systemA imgA cA dA oA tA n f wA fuel order system ft ow addr img tgt src w w' : ProdosSpec.an_order iter ->
    seen_as imgA orderA cA (s2b "nakedos") dA oA -> (systemA = s2b "auto" \/ systemA = s2b "nakedos") -> names_on dA tA -> input wA imgA cA -> w_outroom wA = None ->
    resolves tA n f -> file_on dA f <> [] ->
    run (PutCmd_Run iter fuel order system ft ow addr img tgt src) w = (w', Ok tt) -> input w src (file_on dA f) ->
    eventually (fun k => prints (DumpCmd_Run iter k orderA systemA imgA n) wA (file_on dA f)) /\
    exists c o d t d' new,
      input w img c /\ naked_image c o d /\ (only_seen img order system c o d) /\ names_on d t /\ output w w' img new /\ naked_image new o d' /\
      forall g, no_colon tgt -> resolves t tgt g -> g <> 3 -> g <> 4 ->
      file_on d' g = file_on dA f /\
      forall system2 w2, (system2 = s2b "auto" \/ system2 = s2b "nakedos") -> seen_as img order new (s2b "nakedos") d' o -> input w2 img new -> w_outroom w2 = None ->
        eventually (fun k => prints (DumpCmd_Run iter k order system2 img tgt) w2 (file_on dA f)).
  Proof.
    intros Hi HsA HyA HnA HinA HwA HrA Hne H Hsrc. split.
    - apply (dump_nakedos iter imgA orderA systemA cA dA oA tA n f wA Hi HsA HyA HnA HinA); assumption.
    - destruct (put_known_ls iter fuel _ _ _ _ _ _ _ _ _ _ _ H Hsrc Hne) as (c & o & d & t & d' & new & H1 & H2 & H3 & H4 & H5 & H6 & HX).
      exists c, o, d, t, d', new. split; [exact H1|]. split; [exact H2|]. split; [exact (H3 Hi)|]. split; [exact H4|]. split; [exact H5|]. split; [exact H6|].
      intros g Hnc Hres N3 N4. destruct (HX g Hnc Hres N3 N4) as (fs & fs' & _ & _ & _ & Hg & HY).
      assert (padded (file_on dA f) = file_on dA f) as Ep.
      { destruct (seen_len _ _ _ _ _ _ HsA) as [Hz|Hz]; [|contradiction (Hz eq_refl)].
        unfold file_on. rewrite padded_content; [reflexivity|exact Hz]. }
      rewrite Ep in *. split; [exact Hg|]. intros system2 w2 Hsys Hseen Hin2 Hw2.
      eapply eventually_impl; [|exact (HY system2 false w2 Hsys Hi Hseen Hin2 Hw2)]. intros k [_ Hp]. exact Hp.
  Qed.

  (** ** Edits act on the disk, not on the order of its sectors in the image file *)
  Definition edited (e : edit) (w : world) (op : Operator) : res Operator :=
    match e with
    | EPut ft ow addr n src =>
        data <- sys_read (w_fs w src) ;; ty <- FiletypeForName ft ;;
        (let '(op', r) := PutFile (FI (Desc n [] 0 0 (zlen data) false ty) data addr) ow op in _ <- r ;; Ok op')
    | ERm force n =>
        let '(op', r) := Delete n op in
        ex <- r ;; if negb ex && negb force then Err (EOther "file not found (use -f to prevent this being an error)") else Ok op'
    | EHello n addr start0 =>
        let start := if start0 =? 0xFFFF then addr else start0 in
        if negb (addr mod 256 =? 0) then Err (EOther "address not on a page boundary")
        else if start <? addr then Err (EOther "start address < load address")
        else
          x <- FilesForCompoundName (st_of op) n ;;
          let '(a, sa, _) := x in
          if (a =? 0) && (sa =? 0) then Err (EOther "cannot parse as valid filename")
          else
            let '(op', r) := PutFile (FI (Desc (s2b "DF01:" ++ helloName) [] 0 0 (zlen (hello_program (if a =? 0 then sa else a) addr start)) false FiletypeBinary)
                                       (hello_program (if a =? 0 then sa else a) addr start) 0) true op in
            _ <- r ;; Ok op'
    end.

  Definition flag (e : edit) (system : bytes) : bytes := match e with EHello _ _ _ => s2b "auto" | _ => system end.
  Lemma edit_run k order system img e w c op o : img <> s2b "-" -> input w img c ->
    match e with EPut _ _ _ _ src => src <> s2b "-" | _ => True end ->
    OpenImage c (image_name img) order (flag e system) (DiskOperatorFactories iter k) = Ok (ONaked op, o) ->
    run (edit_command iter k order system img e) w =
    match edited e w op with Ok op' => run (WriteBack img (ONaked op') o true) w | Err x => (w, Err x) | Panic => (w, Panic) end.
  Proof.
    intros Hid Hin Hsrc Ho. destruct (open_run_ok iter k _ _ _ _ _ _ _ Hin Ho) as (w1 & Er & _ & _ & _ & _ & Hw1). rewrite (Hw1 Hid) in Er. clear Hw1 w1.
    destruct e as [ft ow addr n src|force n|n addr start0]; cbn [edit_command edited flag] in *.
    - unfold PutCmd_Run. change dash with (s2b "-"). rewrite (beq_false _ _ Hid). cbn [andb]. rewrite run_pbind, Er.
      unfold FileContentsOrStdIn. change dash with (s2b "-"). rewrite (beq_false _ _ Hsrc). rewrite run_pbind. cbn [run].
      destruct (sys_read (w_fs w src)) as [data|x|]; [|reflexivity|reflexivity]. cbn [rbind run]. rewrite run_pbind. unfold plift at 1. cbn [run].
      destruct (FiletypeForName ft) as [ty|x|]; [|reflexivity|reflexivity]. cbn [rbind Op_PutFile].
      destruct (PutFile _ ow op) as [op' r]. cbn [lift_op]. rewrite run_pbind. unfold plift at 1. cbn [run]. destruct r as [b|x|]; reflexivity.
    - unfold DeleteCmd_Run. rewrite run_pbind, Er. cbn [Op_Delete]. destruct (Delete n op) as [op' r]. cbn [lift_op]. rewrite run_pbind. unfold plift at 1. cbn [run].
      destruct r as [b|x|]; [|reflexivity|reflexivity]. cbn [rbind]. destruct (negb b && negb force); reflexivity.
    - unfold MkHelloCmd_Run. cbv zeta. destruct (negb _); [reflexivity|]. destruct (_ <? addr); [reflexivity|].
      rewrite run_pbind, Er, run_pbind. unfold plift at 1. cbn [run].
      destruct (FilesForCompoundName (st_of op) n) as [[[a sa] sy]|x|]; [|reflexivity|reflexivity]. cbn [rbind].
      destruct ((a =? 0) && (sa =? 0)); [reflexivity|]. cbn [Op_PutFile].
      destruct (PutFile _ true op) as [op' r]. cbn [lift_op]. rewrite run_pbind. unfold plift at 1. cbn [run]. destruct r as [b|x|]; reflexivity.
  Qed.
  Lemma edited_ok e w op op' : op_ok op -> match e with EPut _ _ _ _ src => forall r q, w_fs w src <> NFile [] r q | _ => True end ->
    edited e w op = Ok op' -> op_ok op'.
  Proof.
    intros Hok Hne E. destruct e as [ft ow addr n src|force n|n addr start0]; cbn [edited] in E.
    - destruct (sys_read (w_fs w src)) as [data|x|] eqn:Es; [|discriminate E|discriminate E]. cbn [rbind] in E.
      destruct (FiletypeForName ft) as [ty|x|]; [|discriminate E|discriminate E]. cbn [rbind] in E.
      assert (data <> []) as Hd.
      { intros ->. destruct (w_fs w src) as [| |cc [|] q|] eqn:Ew; try discriminate Es. cbn in Es. injection Es as ->. exact (Hne true q eq_refl). }
      match type of E with context [PutFile ?i ow op] => destruct (PutFile i ow op) as [op2 r] eqn:EP; destruct (PutFile_inv i ow op op2 r Hok Hd EP) as [Hok2 _] end.
      destruct r as [b|x|]; [|discriminate E|discriminate E]. injection E as <-. exact Hok2.
    - destruct (Delete n op) as [op2 r] eqn:EP. destruct (Delete_inv _ _ _ _ Hok EP) as [Hok2 _].
      destruct r as [b|x|]; [|discriminate E|discriminate E]. cbn [rbind] in E. destruct (negb b && negb force); [discriminate E|]. injection E as <-. exact Hok2.
    - cbv zeta in E. destruct (negb _) in E; [discriminate E|]. destruct (_ <? addr) in E; [discriminate E|].
      destruct (FilesForCompoundName (st_of op) n) as [[[a sa] sy]|x|]; [|discriminate E|discriminate E]. cbn [rbind] in E.
      destruct ((a =? 0) && (sa =? 0)); [discriminate E|].
      match type of E with context [PutFile ?i true op] => destruct (PutFile i true op) as [op2 r] eqn:EP; destruct (PutFile_inv i true op op2 r Hok ltac:(discriminate) EP) as [Hok2 _] end.
      destruct r as [b|x|]; [|discriminate E|discriminate E]. injection E as <-. exact Hok2.
  Qed.
  Lemma edited_same e w1 w2 op : same_source e w1 w2 -> edited e w2 op = edited e w1 op.
  Proof. intros H. destruct e as [ft ow addr n src|force n|n addr start0]; cbn [edited same_source] in *; [|reflexivity|reflexivity]. destruct H as (_ & H & _). rewrite H. reflexivity. Qed.

  Lemma edits_reorder e img1 order1 system1 c1 o1 w1 img2 order2 system2 c2 o2 w2 d : ProdosSpec.an_order iter ->
    seen_as img1 order1 c1 (s2b "nakedos") d o1 -> seen_as img2 order2 c2 (s2b "nakedos") d o2 ->
    (system1 = s2b "auto" \/ system1 = s2b "nakedos") -> (system2 = s2b "auto" \/ system2 = s2b "nakedos") ->
    input w1 img1 c1 -> input w2 img2 c2 -> img1 <> s2b "-" -> img2 <> s2b "-" -> same_source e w1 w2 ->
    w_room w1 = None -> w_outroom w1 = None -> can_output w1 img1 true -> w_room w2 = None -> w_outroom w2 = None -> can_output w2 img2 true ->
    eventually (fun k => exists w1' w2' r,
      run (edit_command iter k order1 system1 img1 e) w1 = (w1', r) /\ run (edit_command iter k order2 system2 img2 e) w2 = (w2', r) /\
      ((r = Ok tt /\ exists new1 new2, output w1 w1' img1 new1 /\ output w2 w2' img2 new2 /\ reordered new1 o1 o2 new2) \/
       (r <> Ok tt /\ same_files w1 w1' /\ same_files w2 w2'))).
  Proof.
    intros Hi Hs1 Hs2 Hy1 Hy2 Hin1 Hin2 Hd1 Hd2 Hsrc Hr1 Ho1 Hc1 Hr2 Ho2 Hc2.
    assert (flag e system1 = s2b "auto" \/ flag e system1 = s2b "nakedos") as Hf1 by (destruct e; [exact Hy1|exact Hy1|left; reflexivity]).
    assert (flag e system2 = s2b "auto" \/ flag e system2 = s2b "nakedos") as Hf2 by (destruct e; [exact Hy2|exact Hy2|left; reflexivity]).
    eapply eventually_impl; [|exact (eventually_and _ _ (opens iter _ _ _ _ _ _ _ Hi Hs1 Hf1) (opens iter _ _ _ _ _ _ _ Hi Hs2 Hf2))].
    intros k ((op1 & E1 & P1) & (op2 & E2 & P2)).
    inversion P1 as [| dd op3 En3 X1 X2|]; subst. inversion P2 as [| dd2 op4 En4 X3 X4|]; subst. assert (op4 = op3) as -> by congruence.
    destruct (naked_opened iter k _ _ _ _ _ _ E1) as (_ & R1 & _ & _ & Hre & _). pose proof (reached_ok _ Hre) as Hok.
    destruct (naked_opened iter k _ _ _ _ _ _ E2) as (_ & R2 & _).
    assert (match e with EPut _ _ _ _ src => src <> s2b "-" | _ => True end) as Hsd by (destruct e; [exact (proj1 Hsrc)|exact I|exact I]).
    rewrite (edit_run k order1 system1 img1 e w1 c1 op3 o1 Hd1 Hin1 Hsd E1), (edit_run k order2 system2 img2 e w2 c2 op3 o2 Hd2 Hin2 Hsd E2).
    rewrite (edited_same e w1 w2 op3 Hsrc). destruct (edited e w1 op3) as [op'|x|] eqn:Ee.
    - assert (op_ok op') as Hok' by (apply (edited_ok e w1 op3 op' Hok); [destruct e; [exact (proj2 (proj2 Hsrc))|exact I|exact I]|exact Ee]).
      destruct (writeback_run c1 o1 (op_data op3) op' img1 R1 (fl_len _ _ (ok_fl _ Hok'))) as (n1 & N1 & W1).
      destruct (writeback_run c2 o2 (op_data op3) op' img2 R2 (fl_len _ _ (ok_fl _ Hok'))) as (n2 & N2 & W2).
      destruct (run_output_ok w1 img1 n1 true Hr1 Ho1 Hc1) as [v1 V1]. destruct (run_output_ok w2 img2 n2 true Hr2 Ho2 Hc2) as [v2 V2].
      exists v1, v2, (Ok tt). rewrite W1, W2. split; [exact V1|]. split; [exact V2|]. left. split; [reflexivity|].
      exists n1, n2. split; [apply run_output in V1; exact V1|]. split; [apply run_output in V2; exact V2|].
      apply reordered_back in N2. exact (reordered_through _ _ _ _ _ _ (reordered_back _ _ _ _ N1) N2).
    - exists w1, w2, (Err x). split; [reflexivity|]. split; [reflexivity|]. right. split; [discriminate|]. split; intros n; reflexivity.
    - exists w1, w2, Panic. split; [reflexivity|]. split; [reflexivity|]. right. split; [discriminate|]. split; intros n; reflexivity.
  Qed.
End Laws.

(** ** Commands that only look *)
Fixpoint nowrite {A} (p : prog A) : Prop :=
  match p with
  | PRet _ => True
  | PRead _ k => forall r, nowrite (k r)
  | PStdin _ => False
  | PStat _ k => forall r, nowrite (k r)
  | PWrite _ _ _ => False
  | PStdout _ k => forall r, nowrite (k r)
  end.
Lemma nowrite_bind {A B} (p : prog A) (f : A -> prog B) : nowrite p -> (forall a, nowrite (f a)) -> nowrite (pbind p f).
Proof.
  intros Hp Hf. induction p as [r|n k IH|k IH|n k IH|n c k IH|c k IH]; cbn in *; try contradiction.
  - destruct r; [apply Hf|exact I|exact I].
  - intros r. apply IH, Hp.
  - intros r. apply IH, Hp.
  - intros r. apply IH, Hp.
Qed.
Lemma nowrite_run {A} (p : prog A) : nowrite p -> forall w, quiet (fst (run p w)) = quiet w.
Proof.
  induction p as [r|n k IH|k IH|n k IH|n c k IH|c k IH]; intros Hp w; cbn in Hp; try contradiction; cbn [run].
  - reflexivity.
  - apply IH, Hp.
  - apply IH, Hp.
  - destruct (sys_stdout w c) as [w1 r] eqn:E. rewrite IH by apply Hp. unfold sys_stdout in E. destruct (fits _ _) in E; injection E as <- _; reflexivity.
Qed.
Lemma peeks_nowrite iter fuel p : peeks iter fuel p -> nowrite p.
Proof.
  assert (forall img order system, img <> s2b "-" -> nowrite (OpenFilename iter fuel img order system)) as Hopen.
  { intros img order system H. unfold OpenFilename. change dash with (s2b "-"). rewrite (beq_false _ _ H). apply nowrite_bind; [intros r; exact I|]. intros a. exact I. }
  intros H. destruct H as [order system short img dir H|order system img name H|file loc raw H|all].
  - unfold LsCmd_Run. apply nowrite_bind; [apply Hopen; exact H|]. intros [op o]. destruct (_ && _); [exact I|]. apply nowrite_bind; [exact I|].
    intros l. induction l as [|x l IH]; [exact I|]. cbn. intros r. exact IH.
  - unfold DumpCmd_Run. apply nowrite_bind; [apply Hopen; exact H|]. intros [op o]. apply nowrite_bind; [exact I|].
    intros l. cbn. intros r. exact I.
  - unfold DecodeCmd_Run. apply nowrite_bind.
    + unfold FileContentsOrStdIn. change dash with (s2b "-"). rewrite (beq_false _ _ H). intros r. exact I.
    + intros data. apply nowrite_bind; [exact I|]. intros l. cbn. intros r. exact I.
  - cbn. intros r. exact I.
Qed.
Lemma session_app a : forall b w, session (a ++ b) w =
  let '(w1, l1) := session a w in let '(w2, l2) := session b w1 in (w2, l1 ++ l2).
Proof.
  induction a as [|p a IH]; intros b w; cbn [app session].
  - destruct (session b w); reflexivity.
  - destruct (main_run p (quiet w)) as [w1 s]. rewrite IH. destruct (session a w1) as [w2 l1]. destruct (session b w2) as [w3 l2]. reflexivity.
Qed.
Lemma session_quiet b w w' : quiet w' = quiet w ->
  snd (session b w') = snd (session b w) /\ quiet (fst (session b w')) = quiet (fst (session b w)).
Proof.
  intros H. destruct b as [|p b]; cbn [session]; [split; [reflexivity|exact H]|].
  rewrite H. destruct (main_run p (quiet w)) as [w1 s]. destruct (session b w1) as [w2 l]. split; reflexivity.
Qed.
Lemma quiet_files w w' : quiet w' = quiet w -> same_files w w'.
Proof. intros H n. unfold quiet in H. injection H as H _. rewrite H. reflexivity. Qed.
Lemma peek_inserted (iter : list (Z * Subdirectory) -> list (Z * Subdirectory)) fuel p a b w v l1 w1 v2 l2 : peeks iter fuel p ->
  session a w = (w1, l1) -> session b w1 = (v2, l2) -> main_run p (quiet w1) = v ->
  session (a ++ b) w = (v2, l1 ++ l2) /\
  exists v', session (a ++ p :: b) w = (v', l1 ++ (snd v, w_stdout (fst v)) :: l2) /\ same_files v2 v'.
Proof.
  intros Hp Ea Eb Em. split; [rewrite session_app, Ea, Eb; reflexivity|].
  rewrite session_app, Ea. cbn [session]. rewrite Em. destruct v as [v s].
  assert (quiet v = quiet w1) as Hq.
  { unfold main_run in Em. pose proof (nowrite_run p (peeks_nowrite _ _ _ Hp) (quiet w1)) as Hn. destruct (run p (quiet w1)) as [v0 r].
    cbn [fst] in Hn. injection Em as <- _; exact Hn. }
  destruct (session_quiet b w1 v Hq) as [S1 S2]. rewrite Eb in S1, S2. destruct (session b v) as [v3 l3]. cbn [fst snd] in *. subst l3.
  exists v3. split; [reflexivity|]. apply quiet_files. exact S2.
Qed.
