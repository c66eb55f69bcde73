(** StatusExProofs.v -- an example disk for C108. *)
From Coq Require Import ZifyBool ZifyNat.
From Verif Require Import GoBase GoLemmas TypesModel DiskModel DiskSpec DiskProofs DiskOpenProofs.
From Verif Require Import SupermonModel SupermonSpec SupermonTableSpec SupermonStoreSpec SupermonProofs SupermonSymProofs SupermonTabProofs SupermonLinkProofs SupermonOpProofs SupermonNameProofs SupermonFinalProofs SupermonNamedProofs SupermonStmtProofs SupermonRewriteProofs SupermonReadableProofs.
From Verif Require ProdosSpec.
From Verif Require Import ProdosModel CmdModel CmdSpec CmdProofs CmdStmtProofs MainModel NakedCmdSpec NakedCmdProofs NakedOpenProofs NakedNameProofs NakedExProofs DetectSpec DetectProofs PrintProofs ListSpec ListProofs OpenFuelProofs AfterProofs AfterRmProofs AfterExProofs EmptyPutProofs SessionSpec StatusSpec StatusProofs.
Ltac Zify.zify_post_hook ::= Z.div_mod_to_equations.
Local Opaque zrange zeros sub.

Lemma num_dec n f : parseAddressFilename n = f -> f <> 0 -> numeric n f.
Proof. intros E H. destruct (parseAddress_cases n) as [(g & Hn & Eg)|[_ E0]]; [rewrite <- E, Eg; exact Hn|congruence]. Qed.
Lemma hello_len : zlen hello_table = 819.
Proof. vm_compute. reflexivity. Qed.
Lemma hello_valid : all_valid hello_table.
Proof.
  destruct hello_table_ok as [(_ & Hs & _) _]. intros i Hi. pose proof (Forall_znth _ sym0 _ i Hs Hi) as (_ & H & _). exact H.
Qed.
Lemma hello_room q : room_for hello_table q.
Proof. exists 3. split; [rewrite hello_len; lia|]. right. vm_compute. reflexivity. Qed.

Lemma status_example : exists c d,
  seen_as (s2b "x.do") (s2b "auto") c (s2b "nakedos") d (s2b "do") /\ names_on d hello_table /\
  put_succeeds d hello_table (s2b "B") false (s2b "FNEW") [1; 2; 3] /\ put_crashes d hello_table (s2b "B") false (s2b "FNEW") [] /\
  put_succeeds d hello_table (s2b "B") true (s2b "DF05:FNEW") [1] /\ ~ put_succeeds d hello_table (s2b "B") false (s2b "DF05") [1] /\
  ~ put_succeeds d hello_table (s2b "B") true (s2b "DF05:FX") [1] /\
  rm_succeeds d hello_table false (s2b "DF05") /\ ~ rm_succeeds d hello_table false (s2b "FHELLO") /\ rm_succeeds d hello_table true (s2b "FHELLO") /\
  ~ rm_succeeds d hello_table true (s2b "FNEW") /\
  mkhello_succeeds d hello_table (s2b "DF05") 0x2000 0xFFFF /\ ~ mkhello_succeeds d hello_table (s2b "DF05") 0x2001 0xFFFF /\
  ~ mkhello_succeeds d hello_table (s2b "FNEW") 0x2000 0xFFFF.
Proof.
  destruct hello_table_ok as [T1 T4]. destruct (six_disk _ T1 T4) as (d & sm & Hf & HR & Hbd & O5 & C5 & _ & O1 & _ & _ & OF).
  destruct (do_image _ _ Hf) as [c Hc].
  assert (Hbc : bytes_ok c) by (apply (DetectProofs.reordered_bytes _ _ _ _ (reordered_back _ _ _ _ (proj1 Hc)) Hbd)).
  assert (Hrel : release_byte c <> 3).
  { rewrite <- (release_same _ _ _ _ (proj1 Hc)). rewrite (five_release d sm O5 C5). lia. }
  assert (L : zlen c = 143360) by apply Hc.
  destruct (reordered_ex c (s2b "do") (s2b "do") L (ex_intro _ _ il_do) (ex_intro _ _ il_do)) as [d0 R0].
  pose proof (fl_map _ _ Hf) as Em. pose proof (fl_len _ _ Hf) as Hd.
  assert (F1 : file_on d 1 = []) by (apply (file_on_nil d 1 Hd); rewrite Em; exact O1).
  assert (F5 : file_on d 5 <> []) by (intros X; apply (file_on_nil d 5 Hd) in X; rewrite Em, O5 in X; discriminate X).
  assert (Fr : free_on d = 514) by (unfold free_on; rewrite Em; exact OF).
  assert (S1 : sectors_on d 1 = 0) by (unfold sectors_on; rewrite Em, O1; reflexivity).
  assert (S5 : sectors_on d 5 = 1) by (unfold sectors_on; rewrite Em, O5; reflexivity).
  assert (Hne : hello_table <> []) by discriminate.
  assert (N5 : numeric (s2b "DF05") 5) by (apply num_dec; [vm_compute; reflexivity|lia]).
  assert (NN : forall g, ~ numeric (s2b "FNEW") g) by (apply not_numeric; vm_compute; reflexivity).
  assert (NH : forall g, ~ numeric (s2b "FHELLO") g) by (apply not_numeric; vm_compute; reflexivity).
  assert (RN : forall g, ~ resolves hello_table (s2b "FNEW") g).
  { intros g X. apply FileForName_resolves in X. vm_compute in X. discriminate X. }
  assert (RH : resolves hello_table (s2b "FHELLO") 1) by (apply FileForName_resolves; vm_compute; reflexivity).
  assert (CN : no_colon (s2b "FNEW")) by (apply no_colon_dec; vm_compute; reflexivity).
  assert (M1 : put_meaning d hello_table (s2b "FNEW") 1 (s2b "FNEW") true).
  { apply pm_new; [exact CN|exact RN|unfold legal; lia|exact F1|]. intros g Hg. lia. }
  assert (AN : accepted (s2b "FNEW")) by (right; vm_compute; repeat split; discriminate).
  exists c, d. split.
  { apply (sa_floppy _ _ _ [] _ []); [exact L|exact Hbc|exact auto_do|constructor|].
    apply (ra_naked _ _ d0); [exact R0|apply (not_dos_release _ _ _ R0 Hrel)|apply Hc|apply Hc]. }
  split.
  { pose proof (NewOperator_floppy _ _ Hf) as E. unfold opened_table in E. rewrite HR in E. eexists. split; [exact E|reflexivity]. }
  split.
  { exists 1, (s2b "FNEW"), true. split; [|split; [intros X; discriminate X|intros _ _; split; [apply hello_room|exact hello_valid]]].
    split; [reflexivity|]. split; [exact M1|]. split; [right; split; assumption|]. split; [rewrite Fr, S1; vm_compute; discriminate|]. intros X. contradiction. }
  split.
  { exists 1, (s2b "FNEW"), true. split; [|split; [reflexivity|lia]].
    split; [reflexivity|]. split; [exact M1|]. split; [right; split; assumption|]. split; [rewrite Fr, S1; vm_compute; discriminate|]. intros X. contradiction. }
  split.
  { exists 5, (s2b "FNEW"), true. split; [|split; [intros X; discriminate X|intros _ _; split; [apply hello_room|exact hello_valid]]].
    split; [reflexivity|]. split.
    - change (s2b "DF05:FNEW") with (s2b "DF05" ++ 58 :: s2b "FNEW"). apply pm_at; [exact N5|exact CN|exact NN|]. intros X. apply (RN 5). right. split; assumption.
    - split; [right; split; assumption|]. split; [rewrite Fr, S5; vm_compute; discriminate|reflexivity]. }
  split.
  { intros (f & q & e & (_ & M & _ & _ & Ho) & _). destruct (meaning_one _ _ _ _ _ _ _ _ _ M (pm_number d hello_table _ _ N5)) as (-> & -> & ->). discriminate (Ho F5). }
  split.
  { intros (f & q & e & (_ & M & Hq & _) & _).
    assert (CX : no_colon (s2b "FX")) by (apply no_colon_dec; vm_compute; reflexivity).
    assert (NX : forall g, ~ numeric (s2b "FX") g) by (apply not_numeric; vm_compute; reflexivity).
    assert (MX : put_meaning d hello_table (s2b "DF05:FX") 5 (s2b "FX") true).
    { change (s2b "DF05:FX") with (s2b "DF05" ++ 58 :: s2b "FX"). apply pm_at; [exact N5|exact CX|exact NX|].
      intros X. assert (resolves hello_table (s2b "FX") 5) as Y by (right; split; assumption). apply FileForName_resolves in Y. vm_compute in Y. discriminate Y. }
    destruct (meaning_one _ _ _ _ _ _ _ _ _ M MX) as (-> & -> & ->). destruct Hq as [X|[_ [X|[X _]]]]; [discriminate X|discriminate X|]. vm_compute in X. destruct X as [X _]. apply X. reflexivity. }
  assert (Hrv : forall n i, first_named hello_table n i -> forall j, 0 <= j < zlen hello_table -> j <> i -> valid_name (nm hello_table j)).
  { intros n i _ j Hj _. apply hello_valid. exact Hj. }
  split; [exists 5; split; [left; exact N5|]; split; [left; exact F5|apply Hrv]|].
  split; [intros (f & X & [Y|Y] & _); [|discriminate Y]; rewrite (resolves_det _ _ _ _ X RH) in Y; contradiction|].
  split; [exists 1; split; [exact RH|]; split; [right; reflexivity|apply Hrv]|].
  split; [intros (f & X & _); exact (RN f X)|].
  split.
  { split; [reflexivity|]. split; [intros X; contradiction X; reflexivity|]. split; [exists 5; apply ht_one; [apply no_colon_dec; vm_compute; reflexivity|left; exact N5]|].
    split; [exact Hne|]. split; [left; lia|]. left. destruct RH as [X|[_ X]]; [contradiction (NH 1 X)|exact X]. }
  split; [intros (X & _); vm_compute in X; discriminate X|].
  intros (_ & _ & (f & X) & _). inversion X as [n2 f2 C2 R2|p2 q2 f2 N2 C2 M2 E2]; subst; [exact (RN f R2)|].
  assert (Hin : In 58 (p2 ++ 58 :: q2)) by (apply in_or_app; right; left; reflexivity). rewrite E2 in Hin. exact (CN Hin).
Qed.
