(** RelocProofs.v -- where the files of a DOS 3.3 disk lie does not matter. *)
From Coq Require Import ZifyBool ZifyNat.
From Verif Require Import GoBase GoLemmas TypesModel DiskModel DiskSpec DiskProofs Dos3Model Dos3Spec Dos3CodecProofs Dos3Proofs.
From Verif Require Import ProdosModel CmdModel CmdSpec CmdProofs MainModel NakedCmdSpec NakedCmdProofs DetectSpec DetectProofs BackupSpec RelocSpec.
From Verif Require ProdosSpec SupermonModel LocalProofs.
Ltac Zify.zify_post_hook ::= Z.div_mod_to_equations.
Local Opaque zrange zeros sub.

Section Disks.
  Context (d d' : bytes) (l l' : list (Z * Z)) (B : bytes_ok d) (B' : bytes_ok d') (C : catalog d l) (C' : catalog d' l') (SF : same_dos_files d l d' l').
  Lemma entry_fields e e' : same_entry e e' -> znth 0 e 2 = znth 0 e' 2 /\ sub e 3 33 = sub e' 3 33 /\ get16 e 33 = get16 e' 33.
  Proof.
    intros E. assert (forall i, 0 <= i < 33 -> znth 0 e (2 + i) = znth 0 e' (2 + i)) as K.
    { intros i Hi. rewrite <- (znth_sub 0 e 2 35 i) by lia. rewrite <- (znth_sub 0 e' 2 35 i) by lia. rewrite E. reflexivity. }
    split; [exact (K 0 ltac:(lia))|]. split.
    - pose proof (f_equal (fun x => sub x 1 31) E) as X. cbv beta in X. rewrite !sub_sub in X by lia. exact X.
    - unfold get16. pose proof (K 31 ltac:(lia)) as X. pose proof (K 32 ltac:(lia)) as Y. change (2 + 31) with 33 in X. change (2 + 32) with 34 in Y.
      change (33 + 1) with 34. rewrite X, Y. reflexivity.
  Qed.
  Definition pair_of (e e' : bytes) : Prop := same_entry e e' /\ same_file d (znth 0 e 0, znth 0 e 1) d' (znth 0 e' 0, znth 0 e' 1).
  Lemma same_fds e e' : is_live e = true -> is_live e' = true -> same_entry e e' -> fd_descriptor (fd_of e) = fd_descriptor (fd_of e') /\ FilenameString (fd_of e) = FilenameString (fd_of e').
  Proof.
    intros L L' E. destruct (entry_fields e e' E) as (E1 & E2 & E3).
    assert (FilenameString (fd_of e) = FilenameString (fd_of e')) as EN.
    { unfold FilenameString. rewrite (live_status e L), (live_status e' L'). cbn [fd_of fd_Filename]. rewrite E2. reflexivity. }
    split; [|exact EN]. unfold fd_descriptor. rewrite EN. cbn [fd_of fd_Filetype fd_SectorCount]. rewrite E1, E3. reflexivity.
  Qed.
  Lemma catalog_alike fuel : (length l < fuel)%nat -> (length l' < fuel)%nat -> Dos3Model.Catalog fuel d = Dos3Model.Catalog fuel d'.
  Proof.
    intros F F'. unfold Dos3Model.Catalog. rewrite (ReadCatalog_chain d l fuel B C F), (ReadCatalog_chain d' l' fuel B' C' F').
    assert (map fd_descriptor (map fd_of (filter is_live (entries d l))) = map fd_descriptor (map fd_of (filter is_live (entries d' l')))) as E.
    { pose proof SF as S. unfold same_dos_files in S.
      assert (forall x, In x (filter is_live (entries d l)) -> is_live x = true) as H1 by (intros x Hx; apply filter_In in Hx; apply Hx).
      assert (forall x, In x (filter is_live (entries d' l')) -> is_live x = true) as H2 by (intros x Hx; apply filter_In in Hx; apply Hx).
      induction S as [|e e' es es' [He _] S IH]; [reflexivity|]. cbn [map]. f_equal.
      - apply same_fds; [apply H1; left; reflexivity|apply H2; left; reflexivity|exact He].
      - apply IH; [intros x Hx; apply H1; right; exact Hx|intros x Hx; apply H2; right; exact Hx]. }
    rewrite E. reflexivity.
  Qed.
  Lemma find_alike n : let f := find (fun fd => beq (FilenameString fd) n) in
    (f (map fd_of (filter is_live (entries d l))) = None /\ f (map fd_of (filter is_live (entries d' l'))) = None) \/
    (exists e e', f (map fd_of (filter is_live (entries d l))) = Some (fd_of e) /\ f (map fd_of (filter is_live (entries d' l'))) = Some (fd_of e') /\
       In e (entries d l) /\ In e' (entries d' l') /\ is_live e = true /\ is_live e' = true /\ pair_of e e').
  Proof.
    intros f. subst f. pose proof SF as S. unfold same_dos_files in S.
    assert (forall x, In x (filter is_live (entries d l)) -> In x (entries d l) /\ is_live x = true) as H1 by (intros x Hx; apply filter_In in Hx; exact Hx).
    assert (forall x, In x (filter is_live (entries d' l')) -> In x (entries d' l') /\ is_live x = true) as H2 by (intros x Hx; apply filter_In in Hx; exact Hx).
    induction S as [|e e' es es' He S IH]; [left; split; reflexivity|]. cbn [map find].
    destruct (H1 e (or_introl eq_refl)) as [I1 L1]. destruct (H2 e' (or_introl eq_refl)) as [I2 L2].
    rewrite (proj2 (same_fds e e' L1 L2 (proj1 He))). destruct (beq (FilenameString (fd_of e')) n).
    - right. exists e, e'. split; [reflexivity|]. split; [reflexivity|]. split; [exact I1|]. split; [exact I2|]. split; [exact L1|]. split; [exact L2|exact He].
    - apply IH; [intros x Hx; apply H1; right; exact Hx|intros x Hx; apply H2; right; exact Hx].
  Qed.
  Lemma file_alike n fuel : (length l < fuel)%nat -> (length l' < fuel)%nat -> (list_limit < fuel)%nat ->
    LocalProofs.alike (returned (Dos3Model.GetFile fuel d n)) (returned (Dos3Model.GetFile fuel d' n)).
  Proof.
    intros F F' FL. unfold Dos3Model.GetFile, fileForFilename. rewrite (ReadCatalog_chain d l fuel B C F), (ReadCatalog_chain d' l' fuel B' C' F').
    destruct (find_alike n) as [[-> ->]|(e & e' & -> & -> & I1 & I2 & L1 & L2 & [He Hf])]; [left; reflexivity|].
    pose proof (entries_bytes d l B (catalog_places d l B C)) as FE. rewrite Forall_forall in FE. destruct (FE e I1) as [_ Be].
    pose proof (entries_bytes d' l' B' (catalog_places d' l' B' C')) as FE'. rewrite Forall_forall in FE'. destruct (FE' e' I2) as [_ Be'].
    assert (is_byte (znth 0 e 0) /\ is_byte (znth 0 e 1)) as [b0 b1] by (split; apply bytes_ok_znth; exact Be).
    assert (is_byte (znth 0 e' 0) /\ is_byte (znth 0 e' 1)) as [b0' b1'] by (split; apply bytes_ok_znth; exact Be').
    destruct (body_dec d (znth 0 e 0, znth 0 e 1) B (conj b0 b1)) as [(ls & data & Hb & Hl)|N].
    - destruct (proj1 (Hf (zlen ls) data) (ex_intro _ ls (conj Hb eq_refl))) as (ls' & Hb' & El).
      assert (length ls' < fuel)%nat as Fl' by (unfold zlen in El; lia).
      rewrite (Contents_body d (fd_of e) ls data fuel B b0 b1 Hb ltac:(lia)).
      rewrite (Contents_body d' (fd_of e') ls' data fuel B' b0' b1' Hb' Fl'). rewrite El.
      left. rewrite (proj1 (same_fds e e' L1 L2 He)). destruct (entry_fields e e' He) as (E1 & _). cbn [fd_of fd_Filetype]. rewrite E1. reflexivity.
    - assert (forall ls data, ~ body d' (znth 0 e' 0, znth 0 e' 1) ls data) as N'.
      { intros ls data X. destruct (proj2 (Hf (zlen ls) data) (ex_intro _ ls (conj X eq_refl))) as (l1 & Y & _). exact (N _ _ Y). }
      destruct (Contents_no_body d (fd_of e) fuel B b0 b1 N FL) as [er ->]. destruct (Contents_no_body d' (fd_of e') fuel B' b0' b1' N' FL) as [er' ->].
      right. exists er, er'. split; reflexivity.
  Qed.
End Disks.

Section Commands.
  Context (iter : list (Z * Subdirectory) -> list (Z * Subdirectory)).
  Notation facs := (DiskOperatorFactories iter).
  Section Run.
    Context (fuel : nat) (order order' system system' img img' c c' o o' : bytes) (op op' : AnyOp) (w w' : world).
    Context (Hi : input w img c) (Hi' : input w' img' c') (Hw : w_outroom w = w_outroom w').
    Context (Ho : OpenImage c (image_name img) order system (facs fuel) = Ok (op, o)).
    Context (Ho' : OpenImage c' (image_name img') order' system' (facs fuel) = Ok (op', o')).
    Lemma ls_alike short dir : Op_HasSubdirs op = Op_HasSubdirs op' -> Op_Catalog iter fuel op dir = Op_Catalog iter fuel op' dir ->
      both_show (LsCmd_Run iter fuel order system short img dir) w (LsCmd_Run iter fuel order' system' short img' dir) w'.
    Proof.
      intros H1 H2. destruct (open_run_ok iter fuel _ _ _ _ _ _ _ Hi Ho) as (w1 & Er & _ & Hso & _ & Hor & _).
      destruct (open_run_ok iter fuel _ _ _ _ _ _ _ Hi' Ho') as (w1' & Er' & _ & Hso' & _ & Hor' & _).
      assert (w_outroom w1 = w_outroom w1') as Hw1 by congruence.
      unfold both_show, main_run, LsCmd_Run. rewrite !run_pbind, Er, Er'. rewrite <- H1.
      destruct (negb (beq dir []) && negb (Op_HasSubdirs op)).
      { exists w1, w1', 1, []. rewrite !app_nil_r. repeat split; assumption. }
      rewrite !run_pbind. unfold plift. cbn [run]. rewrite <- H2. destruct (Op_Catalog iter fuel op dir) as [fds|e|].
      - destruct (LocalProofs.ls_lines_same short fds w1 w1' Hw1) as (w2 & w2' & r & text & -> & -> & T & T').
        exists w2, w2', (main_status r), text. rewrite T, T', Hso, Hso'. repeat split.
      - exists w1, w1', 1, []. rewrite !app_nil_r. repeat split; assumption.
      - exists w1, w1', 2, []. rewrite !app_nil_r. repeat split; assumption.
    Qed.
    Lemma dump_alike n : LocalProofs.alike (Op_GetFile fuel op n) (Op_GetFile fuel op' n) ->
      both_show (DumpCmd_Run iter fuel order system img n) w (DumpCmd_Run iter fuel order' system' img' n) w'.
    Proof.
      intros H. destruct (open_run_ok iter fuel _ _ _ _ _ _ _ Hi Ho) as (w1 & Er & _ & Hso & _ & Hor & _).
      destruct (open_run_ok iter fuel _ _ _ _ _ _ _ Hi' Ho') as (w1' & Er' & _ & Hso' & _ & Hor' & _).
      assert (w_outroom w1 = w_outroom w1') as Hw1 by congruence.
      unfold both_show, main_run, DumpCmd_Run. rewrite !run_pbind, Er, Er'. rewrite !run_pbind. unfold plift. cbn [run].
      destruct H as [<-|(e & e' & -> & ->)].
      2: { exists w1, w1', 1, []. rewrite !app_nil_r. repeat split; assumption. }
      destruct (Op_GetFile fuel op n) as [i|e|].
      - cbn [run]. unfold sys_stdout. rewrite <- Hw1. destruct (fits (w_outroom w1) (fi_data i)).
        + exists (add_out w1 (fi_data i)), (add_out w1' (fi_data i)), 0, (fi_data i). cbn [add_out w_stdout]. rewrite Hso, Hso'. repeat split.
        + exists (add_out w1 (cut (w_outroom w1) (fi_data i))), (add_out w1' (cut (w_outroom w1) (fi_data i))), 1, (cut (w_outroom w1) (fi_data i)).
          cbn [add_out w_stdout]. rewrite Hso, Hso'. repeat split.
      - exists w1, w1', 1, []. rewrite !app_nil_r. repeat split; assumption.
      - exists w1, w1', 2, []. rewrite !app_nil_r. repeat split; assumption.
    Qed.
  End Run.
  Lemma relocated img img' order order' system system' c c' d d' o o' l l' w w' : ProdosSpec.an_order iter ->
    seen_as img order c (s2b "dos3") d o -> seen_as img' order' c' (s2b "dos3") d' o' ->
    (system = s2b "auto" \/ system = s2b "dos3") -> (system' = s2b "auto" \/ system' = s2b "dos3") ->
    bytes_ok d -> bytes_ok d' -> catalog d l -> catalog d' l' -> same_dos_files d l d' l' ->
    input w img c -> input w' img' c' -> w_outroom w = w_outroom w' ->
    eventually (fun fuel =>
      (forall short dir, both_show (LsCmd_Run iter fuel order system short img dir) w (LsCmd_Run iter fuel order' system' short img' dir) w') /\
      (forall n, both_show (DumpCmd_Run iter fuel order system img n) w (DumpCmd_Run iter fuel order' system' img' n) w')).
  Proof.
    intros Hi Hs Hs' Sy Sy' B B' C C' SF In1 In2 Hw.
    eapply eventually_impl; [|exact (eventually_and _ _ (eventually_and _ _ (opens iter _ _ _ _ _ _ _ Hi Hs Sy) (opens iter _ _ _ _ _ _ _ Hi Hs' Sy'))
      (ex_intro (fun n0 => forall k, (n0 <= k)%nat -> (length l < k)%nat /\ (length l' < k)%nat /\ (list_limit < k)%nat) (S (length l + length l' + list_limit))
         ltac:(intros k Hk; lia)))].
    intros k [[(op & Ho & Hop) (op' & Ho' & Hop')] (F & F' & FL)]. cbv beta in *. inversion Hop; subst. inversion Hop'; subst. split.
    - intros short dir. eapply (ls_alike k order order' system system' img img' c c' o o'); try eassumption; [reflexivity|].
      cbn [Op_Catalog]. rewrite (catalog_alike d d' l l' B B' C C' SF k F F'). reflexivity.
    - intros n. eapply (dump_alike k order order' system system' img img' c c' o o'); try eassumption.
      cbn [Op_GetFile]. exact (file_alike d d' l l' B B' C C' SF n k F F' FL).
  Qed.
End Commands.
