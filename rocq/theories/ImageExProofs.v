(** ImageExProofs.v -- examples for C110. *)
From Coq Require Import ZifyBool ZifyNat.
From Verif Require Import GoBase GoLemmas TypesModel DiskModel DiskSpec DiskProofs DiskOpenProofs.
From Verif Require Import SupermonModel SupermonSpec SupermonTableSpec.
From Verif Require Dos3Model Dos3Spec Dos3StmtProofs ListProofs.
From Verif Require ProdosSpec ProdosStmtProofs.
From Verif Require Import ProdosModel CmdModel CmdSpec NakedCmdSpec MainModel DetectSpec DetectProofs PrintProofs StatusSpec VolumeSpec VolumeExProofs ImageSpec ImageProofs.
Ltac Zify.zify_post_hook ::= Z.div_mod_to_equations.
Local Opaque zrange zeros sub.

Lemma zeros_not_dos : not_dos (zeros 143360).
Proof. apply (not_dos_release _ _ _ (reordered_zeros _ _ _ _ il_do il_do)). vm_compute. discriminate. Qed.
Lemma told_blank : opening (s2b "x.do") (s2b "auto") (s2b "dos3") (zeros 143360) (Opened (s2b "dos3") (zeros 143360) (s2b "do")) /\
  ls_shows [] false (s2b "dos3") (zeros 143360) Errs /\
  opening (s2b "x.do") (s2b "auto") (s2b "nakedos") (zeros 143360) Refused.
Proof.
  assert (zlen (zeros 143360) = 143360) as L by (apply zlen_zeros; lia). split; [|split].
  - apply (og_told _ _ _ _ (s2b "do") (s2b "do")); [exact L|exact auto_do|constructor|exact (reordered_zeros _ _ _ _ il_do il_do)|discriminate].
  - apply ls_dos_no; [reflexivity|exact zeros_not_dos].
  - apply (og_told_wrong _ _ _ _ (s2b "do") (zeros 143360)); [exact L|exact auto_do|reflexivity|exact (reordered_zeros _ _ _ _ il_do il_raw)|].
    apply (not_naked _ _ _ _ 3 (reordered_zeros _ _ _ _ il_do il_raw) il_do); [lia|vm_compute; reflexivity|]. vm_compute. discriminate.
Qed.
Lemma cyclic_stuck : opening (s2b "x.dsk") (s2b "auto") (s2b "auto") Dos3StmtProofs.ex_cyclic_disk Stuck.
Proof.
  assert (zlen Dos3StmtProofs.ex_cyclic_disk = 143360) as L by (vm_compute; reflexivity).
  apply (og_scan _ _ _ _ [s2b "do"; s2b "po"] [s2b "dos3"; s2b "nakedos"; s2b "prodos"]); [exact L|exact auto_dsk|constructor|left; reflexivity|].
  cbn [list_prod map app]. apply (sc_never _ _ _ (s2b "do") Dos3StmtProofs.ex_cyclic_disk); [constructor|apply (reordered_self _ _ _ L il_do)|constructor; exact Dos3StmtProofs.ex_cyclic].
Qed.
Lemma noise_may : may ex_noise [] Fails.
Proof.
  assert (zlen ex_noise = 143360) as L by exact noise_len.
  assert (ProdosSpec.in_dev ex_noise 2) as D by (unfold ProdosSpec.in_dev; rewrite L; lia).
  apply (may_leave _ _ 2); [intros H; lia|exact D|left; reflexivity|]. right. exists [], 65535.
  assert (ProdosSpec.next_block ex_noise 2 = 65535) as -> by (vm_compute; reflexivity).
  split; [constructor|]. split; [lia|]. unfold ProdosSpec.in_dev. rewrite L. lia.
Qed.
Lemma noise_refused : opening (s2b "x.dsk") (s2b "auto") (s2b "auto") ex_noise Refused.
Proof.
  apply (og_scan _ _ _ _ [s2b "do"; s2b "po"] [s2b "dos3"; s2b "nakedos"; s2b "prodos"]); [exact noise_len|exact auto_dsk|constructor|left; reflexivity|].
  assert (N0 : not_dos ex_noise).
  { apply (not_dos_release _ _ _ (reordered_noise _ _ _ _ il_do il_do)). unfold release_byte. rewrite noise_sector by lia. vm_compute. discriminate. }
  assert (N1 : ~ naked_disk ex_noise).
  { apply (not_naked _ _ _ _ 3 (reordered_noise _ _ _ _ il_do il_raw) il_do); [lia|vm_compute; reflexivity|]. rewrite noise_sector by lia. vm_compute. discriminate. }
  assert (H : forall o l rest, interleave o l -> scan ex_noise rest Refused -> scan ex_noise ((o, s2b "dos3") :: (o, s2b "nakedos") :: (o, s2b "prodos") :: rest) Refused).
  { intros o l rest I S. apply (sc_no _ _ _ (s2b "do") ex_noise); [constructor|exact (reordered_noise _ _ _ _ I il_do)|constructor; exact N0|].
    apply (sc_no _ _ _ (s2b "raw") ex_noise); [constructor|exact (reordered_noise _ _ _ _ I il_raw)|constructor; exact N1|].
    apply (sc_no _ _ _ (s2b "po") ex_noise); [constructor|exact (reordered_noise _ _ _ _ I il_po)|apply td_prodos_no; exact noise_may|exact S]. }
  cbn [list_prod map app]. apply (H _ _ _ il_do). apply (H _ _ _ il_po). constructor.
Qed.
Lemma dos_opened : exists e ls data,
  opening (s2b "x.dsk") (s2b "auto") (s2b "auto") Dos3StmtProofs.ex_dos_disk (Opened (s2b "dos3") Dos3StmtProofs.ex_dos_disk (s2b "do")) /\
  Dos3Spec.lookup (Dos3Spec.entries Dos3StmtProofs.ex_dos_disk [(17, 15); (17, 14)]) (s2b "LONG") e /\
  Dos3Spec.body Dos3StmtProofs.ex_dos_disk (znth 0 e 0, znth 0 e 1) ls data /\
  dump_shows (s2b "LONG") (s2b "dos3") Dos3StmtProofs.ex_dos_disk Crashes.
Proof.
  destruct ListProofs.fatal_example as (e & ls & data & H1 & H2 & H3). exists e, ls, data. split; [|split; [exact H1|split; [exact H2|]]].
  - assert (zlen Dos3StmtProofs.ex_dos_disk = 143360) as L by (vm_compute; reflexivity).
    apply (og_scan _ _ _ _ [s2b "do"; s2b "po"] [s2b "dos3"; s2b "nakedos"; s2b "prodos"]); [exact L|exact auto_dsk|constructor|left; reflexivity|].
    cbn [list_prod map app]. apply (sc_yes _ _ _ (s2b "do")); [constructor|apply (reordered_self _ _ _ L il_do)|constructor; eexists; exact Dos3StmtProofs.ex_catalog].
  - apply (du_dos_fatal _ _ _ _ _ _ Dos3StmtProofs.ex_catalog H1 H2 H3).
Qed.
Lemma astray_both : opening (s2b "x.po") (s2b "auto") (s2b "auto") ex_astray Refused /\ opening (s2b "x.po") (s2b "auto") (s2b "auto") ex_astray Stuck /\
  opening (s2b "x.po") (s2b "auto") (s2b "prodos") ex_astray (Opened (s2b "prodos") ex_astray (s2b "po")) /\
  ls_shows [] false (s2b "prodos") ex_astray Errs /\ ls_shows [] false (s2b "prodos") ex_astray Crashes.
Proof.
  destruct ex_astray_ok as (B & L & _). destruct (ex_astray_may []) as [MF MH].
  assert (E : release_byte ex_astray <> 3) by (vm_compute; discriminate).
  assert (E1 : znth 0 (sector ex_astray 0 12) 208 <> 254) by (vm_compute; discriminate).
  remember ex_astray as v eqn:Ev. clear Ev.
  destruct (reordered_ex v (s2b "po") (s2b "do") L (ex_intro _ _ il_po) (ex_intro _ _ il_do)) as [d0 R0].
  destruct (reordered_ex v (s2b "po") (s2b "raw") L (ex_intro _ _ il_po) (ex_intro _ _ il_raw)) as [d1 R1].
  pose proof (reordered_self _ _ _ L il_po) as R.
  pose proof (not_dos_release _ _ _ R0 E) as N0. assert (N1 : ~ naked_disk d1) by (apply (not_naked _ _ _ _ 12 R1 il_po); [lia|vm_compute; reflexivity|exact E1]).
  assert (H : forall r, scan v [(s2b "po", s2b "prodos")] r -> opening (s2b "x.po") (s2b "auto") (s2b "auto") v r).
  { intros r S. apply (og_scan _ _ _ _ [s2b "po"] [s2b "dos3"; s2b "nakedos"; s2b "prodos"]); [exact L|exact auto_po|constructor|left; reflexivity|].
    cbn [list_prod map app]. apply (sc_no _ _ _ (s2b "do") d0); [constructor|exact R0|constructor; exact N0|].
    apply (sc_no _ _ _ (s2b "raw") d1); [constructor|exact R1|constructor; exact N1|exact S]. }
  split; [|split; [|split; [|split]]].
  - apply H. apply (sc_no _ _ _ (s2b "po") v); [constructor|exact R|apply td_prodos_no; exact MF|constructor].
  - apply H. apply (sc_never _ _ _ (s2b "po") v); [constructor|exact R|apply td_prodos_never; exact MH].
  - apply (og_told _ _ _ _ (s2b "po") (s2b "po")); [exact L|exact auto_po|constructor|exact R|discriminate].
  - apply ls_prodos_no. exact MF.
  - apply ls_prodos_never. exact MH.
Qed.
Lemma opening_total_lemma : forall (iter : list (Z * Subdirectory) -> list (Z * Subdirectory)) img order system c,
  bytes_ok c -> ProdosSpec.an_order iter -> exists r, opening img order system c r /\
  match r with
  | Opened sys d o => eventually (fun k => exists op, OpenImage c (image_name img) order system (DiskOperatorFactories iter k) = Ok (op, o) /\ Op_Name op = sys /\ Op_GetBytes op = d)
  | Refused => eventually (fun k => exists e, OpenImage c (image_name img) order system (DiskOperatorFactories iter k) = Err e)
  | Stuck => eventually (fun k => OpenImage c (image_name img) order system (DiskOperatorFactories iter k) = Panic)
  end.
Proof.
  intros iter img order system c B Hi. destruct (opening_total iter img order system c B Hi) as (r & O & H). exists r. split; [exact O|]. destruct r as [sys d o| |]; [|exact H|exact H].
  destruct (opening_bytes _ _ _ _ _ _ _ B O) as (_ & _ & _ & Hn). eapply eventually_impl; [|exact H]. intros k (op & Ho & Hop). exists op. split; [exact Ho|]. apply (op_for_name sys d op); [|exact Hop].
  destruct (beq sys (s2b "nakedos")) eqn:E; [apply beq_eq in E; left; apply Hn, E|apply beq_neq in E; right; exact E].
Qed.
