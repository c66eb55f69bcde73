(** CrashExProofs.v -- commands that crash or do not end, and an image on which all end. *)
From Verif Require Import GoBase GoLemmas TypesModel DiskModel DiskSpec DiskProofs Dos3Model Dos3Spec Dos3Proofs Dos3StmtProofs.
From Verif Require Import SupermonModel SupermonSpec SupermonStoreSpec SupermonProofs SupermonOpProofs SupermonFinalProofs SupermonStmtProofs SupermonNameProofs.
From Verif Require ProdosSpec ProdosModel BasicSpec BasicModel BasicProofs BasicStmtProofs ListProofs PrintProofs.
From Verif Require Import CmdModel CmdSpec CmdProofs CmdStmtProofs NakedCmdSpec NakedCmdProofs NakedOpenProofs NakedExProofs DetectSpec DetectProofs MainModel CrashSpec CrashProofs.
From Coq Require Import ZifyBool ZifyNat.
Ltac Zify.zify_post_hook ::= Z.div_mod_to_equations.
Local Opaque zrange zeros sub.

Lemma panic_status p w w' : run p w = (w', Panic) -> main_run p w = (w', 2).
Proof. intros E. unfold main_run. rewrite E. reflexivity. Qed.

Section Ex.
  Context (iter : list (Z * ProdosModel.Subdirectory) -> list (Z * ProdosModel.Subdirectory)).

  Lemma put_empty_crash : exists w, input w (s2b "f") [] /\ forall fuel, exists w',
    main_run (PutCmd_Run iter fuel (s2b "auto") (s2b "auto") (s2b "B") false 0 (s2b "x.do") (s2b "DF07") (s2b "f")) w = (w', 2).
  Proof.
    destruct (do_image _ _ ex_floppy) as [c Hc].
    assert (Hrel : release_byte c <> 3).
    { rewrite <- (release_same _ _ _ _ (proj1 Hc)). unfold release_byte. change ex_blank with (map_disk ex_map).
      rewrite map_disk_sector by reflexivity. rewrite znth_zeros; lia. }
    exists (two_files (s2b "x.do") c (s2b "f") []).
    remember (two_files (s2b "x.do") c (s2b "f") []) as w eqn:Ew.
    assert (Hi : input w (s2b "x.do") c) by (right; split; [discriminate|]; exists true; rewrite Ew; reflexivity).
    assert (Hf : input w (s2b "f") []) by (right; split; [discriminate|]; exists true; rewrite Ew; reflexivity).
    split; [exact Hf|]. intros fuel.
    destruct (open_naked iter fuel c (s2b "do") ex_blank (s2b "x.do") (s2b "auto") first_do Hc Hrel) as (op & Eo & En).
    destruct (NewOperator_ok _ _ (fl_len _ _ ex_floppy) En) as (Hok & Ed & Em & _).
    assert (Es : stored_map ex_blank = ex_map) by apply (fl_map _ _ ex_floppy). rewrite Es in Em.
    assert (Hn : numeric (s2b "DF07") 7).
    { destruct (parseAddress_cases (s2b "DF07")) as [(g & Hg & Eg)|[_ Hno]]; [|vm_compute in Hno; discriminate Hno].
      change (parseAddressFilename (s2b "DF07")) with 7 in Eg. subst g. exact Hg. }
    destruct (put_empty_panics op (FI (Desc (s2b "DF07") [] 0 0 0 false FiletypeBinary) [] 0) 7 false Hok Hn) as [op' EP]; try reflexivity.
    { rewrite Em. destruct ex_free as [F _]. intros H. rewrite H in F. discriminate F. }
    { rewrite Em. destruct ex_free as [_ F]. apply F; unfold legal; lia. }
    destruct (open_run_ok iter fuel _ _ _ _ _ _ _ Hi Eo) as (w1 & Er & Hsf & _ & _ & _ & Hw1).
    assert (w1 = w) as -> by (apply Hw1; discriminate).
    destruct (run_contents_ok w (s2b "f") [] Hf) as (w2 & Er2 & _).
    exists w2. apply panic_status. unfold PutCmd_Run.
    change (beq (s2b "x.do") dash && beq (s2b "f") dash)%bool with false. cbv iota.
    rewrite run_pbind, Er. rewrite run_pbind, Er2. rewrite run_pbind. unfold plift at 1. cbn [run].
    change (FiletypeForName (s2b "B")) with (@Ok Z FiletypeBinary). cbv iota beta. change (zlen (@nil Z)) with 0.
    cbn [Op_PutFile]. rewrite EP. cbn [lift_op]. rewrite run_pbind. reflexivity.
  Qed.
  Lemma dump_long_crash : ProdosSpec.an_order iter -> exists w,
    eventually (fun fuel => exists w', main_run (DumpCmd_Run iter fuel (s2b "auto") (s2b "auto") (s2b "x.dsk") (s2b "LONG")) w = (w', 2)).
  Proof.
    intros Hi. destruct ListProofs.fatal_example as (e & ls & data & H1 & H2 & H3).
    exists (one_file (s2b "x.dsk") ex_dos_disk None).
    eapply eventually_impl; [|refine (ListProofs.dos_fatal iter _ _ _ _ _ _ _ _ _ _ _ (one_file (s2b "x.dsk") ex_dos_disk None) Hi ex_seen_dos (or_introl eq_refl) ex_dos_disk_ok ex_catalog _ eq_refl H1 H2 H3)].
    - intros k [_ [w' E]]. exists w'. apply panic_status. exact E.
    - right. split; [discriminate|]. exists true. apply one_file_get.
  Qed.
  Lemma open_run_any w img order system c : input w img c -> exists w1, forall k,
    run (OpenFilename iter k img order system) w = (w1, OpenImage c (image_name img) order system (DiskOperatorFactories iter k)).
  Proof.
    intros Hin. unfold OpenFilename, image_name. change dash with (s2b "-"). destruct Hin as [[-> Hs]|[Hn [wr Hf]]].
    - rewrite beq_refl. eexists. intros k. rewrite run_pbind. cbn [run]. unfold sys_stdin. rewrite Hs. reflexivity.
    - rewrite (beq_false _ _ Hn). eexists. intros k. rewrite run_pbind. cbn [run]. rewrite Hf. reflexivity.
  Qed.
  Lemma ls_cyclic_hangs : exists w, forall fuel, exists w',
    main_run (LsCmd_Run iter fuel (s2b "auto") (s2b "auto") true (s2b "x.dsk") []) w = (w', 2).
  Proof.
    exists (one_file (s2b "x.dsk") ex_cyclic_disk None). intros fuel.
    destruct (open_run_any (one_file (s2b "x.dsk") ex_cyclic_disk None) (s2b "x.dsk") (s2b "auto") (s2b "auto") ex_cyclic_disk) as [w1 E].
    { right. split; [discriminate|]. exists true. apply one_file_get. }
    exists w1. apply panic_status. unfold LsCmd_Run. rewrite run_pbind, E.
    change (image_name (s2b "x.dsk")) with (s2b "x.dsk").
    rewrite (proj2 (PrintProofs.cyclic_example iter fuel)). reflexivity.
  Qed.
End Ex.

Lemma decode_crash : exists w, eventually (fun fuel => exists w', main_run (DecodeCmd_Run fuel (s2b "p") 0x801 false) w = (w', 2)).
Proof.
  exists (one_file (s2b "p") BasicStmtProofs.ex_before None). destruct BasicStmtProofs.C56_panic_lemma as (n & r & -> & H).
  exists n. intros k Hk. specialize (H k Hk). cbv beta in H.
  destruct (run_contents_ok (one_file (s2b "p") BasicStmtProofs.ex_before None) (s2b "p") BasicStmtProofs.ex_before) as (w1 & Er & _).
  { right. split; [discriminate|]. exists true. apply one_file_get. }
  exists w1. apply panic_status. unfold DecodeCmd_Run. rewrite run_pbind, Er, run_pbind. unfold plift. cbn [run]. rewrite H. reflexivity.
Qed.
Lemma decode_loop : exists w, forall fuel, exists w', main_run (DecodeCmd_Run fuel (s2b "p") 0x801 false) w = (w', 2).
Proof.
  exists (one_file (s2b "p") BasicStmtProofs.ex_loop None). intros k. pose proof (BasicStmtProofs.C56_loop_lemma k) as H. cbv beta in H.
  destruct (run_contents_ok (one_file (s2b "p") BasicStmtProofs.ex_loop None) (s2b "p") BasicStmtProofs.ex_loop) as (w1 & Er & _).
  { right. split; [discriminate|]. exists true. apply one_file_get. }
  exists w1. apply panic_status. unfold DecodeCmd_Run. rewrite run_pbind, Er, run_pbind. unfold plift. cbn [run]. rewrite H. reflexivity.
Qed.

(** The example DOS 3.3 disk can be taken to be in either order without harm: in ProDOS order
    its catalog has no entries in its second sector. *)
Lemma sector_po c d t s : reordered c (s2b "po") (s2b "do") d -> 0 <= t < 35 -> 0 < s < 15 -> sector d t s = sector c t (15 - s).
Proof.
  intros (_ & _ & lf & lt & If & It & H) Ht Hs. inversion If; subst. inversion It; subst. apply H; try lia.
  assert (s = 1 \/ s = 2 \/ s = 3 \/ s = 4 \/ s = 5 \/ s = 6 \/ s = 7 \/ s = 8 \/ s = 9 \/ s = 10 \/ s = 11 \/ s = 12 \/ s = 13 \/ s = 14) as Hc by lia.
  repeat (destruct Hc as [->|Hc]; [reflexivity|]). subst s. reflexivity.
Qed.
Lemma sector_po_end c d t s : reordered c (s2b "po") (s2b "do") d -> 0 <= t < 35 -> s = 0 \/ s = 15 -> sector d t s = sector c t s.
Proof.
  intros (_ & _ & lf & lt & If & It & H) Ht Hs. inversion If; subst. inversion It; subst. apply H; try lia.
  destruct Hs as [->| ->]; reflexivity.
Qed.
Lemma ex_dos_settled : settled (s2b "auto") ex_dos_disk.
Proof.
  assert (zlen ex_dos_disk = 143360) as L by (vm_compute; reflexivity).
  split; [exact ex_dos_disk_ok|]. split; [intros _|intros H; destruct (H L)].
  split; [apply (st_dos _ _ _ ex_dos_disk); [left; reflexivity|apply (reordered_self _ _ _ L il_do)|eexists; exact ex_catalog]|].
  destruct (reordered_ex ex_dos_disk (s2b "po") (s2b "do") L (ex_intro _ _ il_po) (ex_intro _ _ il_do)) as [d R].
  apply (st_dos _ _ _ d); [left; reflexivity|exact R|]. exists [(17, 15); (17, 14)].
  destruct ex_catalog as (_ & G & _).
  assert (zlen d = 143360) as Ld by apply R.
  assert (vtoc d = vtoc ex_dos_disk) as Ev by (apply (sector_po_end _ _ 17 0 R); lia).
  assert (znth 0 (vtoc ex_dos_disk) 0x35 = 16) as S by (vm_compute; reflexivity).
  split; [unfold in_image; rewrite Ld; unfold offset; lia|]. rewrite Ev. split; [exact G|].
  assert (catalog_start d = (17, 15)) as -> by (unfold catalog_start; rewrite Ev; vm_compute; reflexivity).
  assert (link d 17 15 = (17, 14)) as E1 by (unfold link; rewrite (sector_po_end _ _ 17 15 R) by lia; vm_compute; reflexivity).
  assert (link d 17 14 = (0, 0)) as E2 by (unfold link; rewrite (sector_po _ _ 17 14 R) by lia; vm_compute; reflexivity).
  constructor; [discriminate | unfold catalog_place; rewrite Ev, S, Ld; unfold offset; lia|]. rewrite E1.
  constructor; [discriminate | unfold catalog_place; rewrite Ev, S, Ld; unfold offset; lia|]. rewrite E2. constructor.
Qed.
Lemma safe_example : forall (iter : list (Z * ProdosModel.Subdirectory) -> list (Z * ProdosModel.Subdirectory)),
  let w := one_file (s2b "x.dsk") ex_dos_disk None in
  safe iter w (fun k => LsCmd_Run iter k (s2b "auto") (s2b "auto") false (s2b "x.dsk") []) /\
  safe iter w (fun k => DeleteCmd_Run iter k (s2b "auto") (s2b "auto") true (s2b "x.dsk") (s2b "HELLO")).
Proof.
  intros iter w.
  assert (forall c, input w (s2b "x.dsk") c -> settled (s2b "auto") c) as H.
  { intros c [[H _]|[_ [b H]]]; [discriminate H|]. unfold w in H. rewrite one_file_get in H. injection H as <- _. exact ex_dos_settled. }
  split; constructor; exact H.
Qed.
Lemma refuted : forall (iter : list (Z * ProdosModel.Subdirectory) -> list (Z * ProdosModel.Subdirectory)), ProdosSpec.an_order iter ->
  (exists w, input w (s2b "f") [] /\ forall fuel, exists w',
     main_run (PutCmd_Run iter fuel (s2b "auto") (s2b "auto") (s2b "B") false 0 (s2b "x.do") (s2b "DF07") (s2b "f")) w = (w', 2)) /\
  (exists w, eventually (fun fuel => exists w',
     main_run (DumpCmd_Run iter fuel (s2b "auto") (s2b "auto") (s2b "x.dsk") (s2b "LONG")) w = (w', 2))) /\
  (exists w, eventually (fun fuel => exists w', main_run (DecodeCmd_Run fuel (s2b "p") 0x801 false) w = (w', 2))) /\
  (exists w, forall fuel, exists w', main_run (DecodeCmd_Run fuel (s2b "p") 0x801 false) w = (w', 2)) /\
  (exists w, forall fuel, exists w',
     main_run (LsCmd_Run iter fuel (s2b "auto") (s2b "auto") true (s2b "x.dsk") []) w = (w', 2)).
Proof.
  intros iter Hi. split; [apply put_empty_crash|]. split; [apply dump_long_crash; exact Hi|]. split; [exact decode_crash|].
  split; [exact decode_loop|apply ls_cyclic_hangs].
Qed.
