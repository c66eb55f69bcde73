(** FlagsProofs.v -- proofs for C99: what the flag --system can be told. *)
From Verif Require Import GoBase GoLemmas TypesModel DiskModel DiskSpec DiskProofs DiskOpenProofs.
From Verif Require Import SupermonModel SupermonSpec SupermonTableSpec SupermonStoreSpec SupermonProofs SupermonSymProofs SupermonTabProofs SupermonLinkProofs SupermonNameProofs
  SupermonOpProofs SupermonNamedProofs SupermonFinalProofs SupermonStmtProofs.
From Verif Require Import Dos3Model ProdosModel CmdModel CmdSpec CmdProofs CmdStmtProofs NakedCmdSpec NakedCmdProofs NakedOpenProofs NakedExProofs
  MainModel DetectSpec FlagsSpec DetectProofs PrintProofs SessionExProofs.
From Verif Require Dos3Spec ProdosSpec Dos3StmtProofs.
From Coq Require Import ZifyBool ZifyNat.
Ltac Zify.zify_post_hook ::= Z.div_mod_to_equations.
Local Opaque zrange zeros sub.

Section Flags.
  Context (iter : list (Z * Subdirectory) -> list (Z * Subdirectory)).
  Notation facs := (DiskOperatorFactories iter).

  (** ** A system that is asked for *)
  Lemma is_disk_len c o sys d : is_disk c o sys d -> zlen c = 143360.
  Proof. intros [x R _|x R _|x R _]; apply R. Qed.
  Lemma opens_told img order c sys d o : ProdosSpec.an_order iter -> told_as img order c sys d o ->
    eventually (fun k => exists op, OpenImage c (image_name img) order sys (facs k) = Ok (op, o) /\ op_for sys d op).
  Proof.
    intros Hi (B & pre & rest & Hc & Hpre & Hd). pose proof (is_disk_len _ _ _ _ Hd) as Hz. destruct Hd as [d R N|d R N|d R N].
    - exists 561%nat. intros k Hk. exists (ODos3 d). split; [|constructor].
      apply (scan_at iter k c _ order (s2b "dos3") [dos3_factory k] pre o rest [] (dos3_factory k) []);
        [exact Hz|right; split; [discriminate|reflexivity]|exact Hc|reflexivity| |constructor|apply acc_dos; assumption|right; reflexivity].
      eapply Forall_impl; [|exact Hpre]. intros o' Hno. inversion Hno as [d' R' N' E| |]. cbn [map]. constructor; [|constructor].
      apply (rej_dos c o' d' k B R' N' Hk).
    - destruct (acc_naked c o d R N) as (op & En & Ha).
      exists O. intros k _. exists (ONaked op). split; [|constructor; exact En].
      apply (scan_at iter k c _ order (s2b "nakedos") [nakedos_factory] pre o rest [] nakedos_factory []);
        [exact Hz|right; split; [discriminate|reflexivity]|exact Hc|reflexivity| |constructor|exact Ha|right; reflexivity].
      eapply Forall_impl; [|exact Hpre]. intros o' Hno. inversion Hno as [|d' R' N' E|]. cbn [map]. constructor; [|constructor].
      apply (rej_naked c o' d' R' N').
    - assert (eventually (fun k => Forall (fun o' => Forall (rejects c) (map (pair o') [prodos_factory iter k])) pre)) as Epre.
      { apply (eventually_Forall (fun o' k => Forall (rejects c) (map (pair o') [prodos_factory iter k]))).
        eapply Forall_impl; [|exact Hpre]. intros o' Hno. inversion Hno as [| |d' R' N' E].
        eapply eventually_impl; [|exact (rej_prodos iter c o' d' B R' N')]. intros k Hk. cbn [map]. constructor; [exact Hk|constructor]. }
      eapply eventually_impl; [|exact (eventually_and _ _ Epre (acc_prodos iter c o d Hi R N))]. intros k [Hp Ha]. cbv beta in *.
      exists (OProdos d). split; [|constructor].
      apply (scan_at iter k c _ order (s2b "prodos") [prodos_factory iter k] pre o rest [] (prodos_factory iter k) []);
        [exact Hz|right; split; [discriminate|reflexivity]|exact Hc|reflexivity|exact Hp|constructor|exact Ha|right; reflexivity].
  Qed.

  Lemma ls_told_naked img order c d o t (short : bool) w : ProdosSpec.an_order iter -> told_as img order c (s2b "nakedos") d o ->
    names_on d t -> input w img c -> w_outroom w = None ->
    eventually (fun k => exists fs text, files_on d fs /\
      all_lines (map (if short then shown t else shown_full t) fs) text /\ prints (LsCmd_Run iter k order (s2b "nakedos") short img []) w text).
  Proof.
    intros Hi Hs (op0 & En0 & Et) Hin Hw. assert (zlen d = 143360) as Hz.
    { destruct Hs as (_ & pre & rest & _ & _ & Hd). inversion Hd as [| ? R N|]. apply R. }
    eapply eventually_impl; [|exact (opens_told _ _ _ _ _ _ Hi Hs)].
    intros k (op & Ho & Hop). inversion Hop as [| ? op1 En|]; subst. assert (op1 = op0) as -> by congruence.
    destruct (NewOperator_ok _ _ Hz En) as (Hok & Ed & Em & _).
    destruct (ls_prints iter k order (s2b "nakedos") short img [] w c (ONaked op0) o _ Hin Hw Ho (or_introl eq_refl) (Catalog_spec op0)) as (text & Hl & Hp).
    eexists. exists text. split; [|split; [|exact Hp]].
    2: { rewrite map_map in Hl. match type of Hl with all_lines (map ?g ?l) _ => assert (map g l = map (if short then shown (st_of op0) else shown_full (st_of op0)) l) as EL; [|rewrite EL in Hl; exact Hl] end.
         apply map_ext. intros f. unfold ls_name. cbn [d_name d_fullname]. destruct short; [reflexivity|]. cbn [negb andb].
         assert (shown_full (st_of op0) f <> []) as Hne by (unfold shown_full, printed; destruct (symbol_for _ _); discriminate).
         destruct (beq (shown_full (st_of op0) f) []) eqn:E; [apply beq_eq in E; contradiction|reflexivity]. }
    rewrite Em. split.
    - intros f. rewrite filter_In, in_map_iff. unfold legal, file_on. rewrite (content_nil_iff d (stored_map d) f Hz). split.
      + intros [(k' & <- & Hk) Hn']. apply In_zrange in Hk. split; [lia|]. intros E. rewrite E in Hn'. discriminate Hn'.
      + intros [Hf Hn']. split; [exists (f - 1); split; [lia|apply In_zrange; lia]|].
        destruct (Z.eqb_spec (zlen (owned (stored_map d) f)) 0) as [E|E]; [apply zlen_zero_nil in E; contradiction|reflexivity].
    - apply sorted_filter, sorted_files.
  Qed.

  Lemma selected_lemma img order c sys d o : ProdosSpec.an_order iter -> told_as img order c sys d o ->
    eventually (fun fuel => exists op, OpenImage c (image_name img) order sys (facs fuel) = Ok (op, o) /\ Op_Name op = sys /\ Op_GetBytes op = d).
  Proof.
    intros Hi Hs. assert (zlen d = 143360) as Hz.
    { destruct Hs as (_ & pre & rest & _ & _ & Hd). destruct Hd as [? R N|? R N|? R N]; apply R. }
    eapply eventually_impl; [|exact (opens_told _ _ _ _ _ _ Hi Hs)]. intros k (op & Ho & Hop). exists op. split; [exact Ho|].
    destruct Hop as [d|d op En|d]; [split; reflexivity| |split; reflexivity]. split; [reflexivity|]. cbn [Op_GetBytes].
    destruct (NewOperator_ok _ _ Hz En) as (_ & Ed & _). exact Ed.
  Qed.

  (** ** put and rm with --system dos3 *)
  Lemma told_dos3 c name order k op o : OpenImage c name order (s2b "dos3") (facs k) = Ok (op, o) -> exists d, op = ODos3 d.
  Proof.
    intros H. destruct (Z.eq_dec (zlen c) 143360) as [Hz|Hz].
    2: { apply (open_hdv c name order (s2b "dos3") (facs k) op o Hz) in H as (_ & _ & _ & _ & _ & [E|E] & _); discriminate E. }
    assert (Hsel : selected f_name (s2b "dos3") (facs k) [dos3_factory k]) by (right; split; [discriminate|reflexivity]).
    destruct (candidate_orders order (to_lower (path_Ext name))) as [orders|e|] eqn:E.
    - apply candidate_orders_iff in E. destruct (Z.eq_dec (zlen orders) 1) as [E1|E1].
      + destruct orders as [|o1 [|o2 r]]; [discriminate E1| |rewrite !zlen_cons in E1; pose proof (zlen_nonneg r); lia].
        pose proof (open_pinned c name order (s2b "dos3") (facs k) [dos3_factory k] o1 Hz (facs_order iter k) Hsel E ltac:(discriminate)) as (d & _ & HP).
        rewrite HP in H. cbn [f_operator dos3_factory] in H. exists d. injection H as <- _. reflexivity.
      + apply (open_scan c name order (s2b "dos3") (facs k) [dos3_factory k] orders op o Hz (facs_order iter k) Hsel E (or_introl E1)) in H as (l1 & f & l2 & El & _ & Ha).
        assert (In (o, f) (list_prod orders [dos3_factory k])) as Hin by (rewrite El; apply in_elt).
        apply in_prod_iff in Hin as [_ [<-|[]]]. destruct Ha as (d & _ & _ & Ho). exists d. cbn in Ho. injection Ho as <-. reflexivity.
    - exfalso. destruct (open_no_candidates c name order (s2b "dos3") (facs k) Hz) as [e' E']; [|congruence].
      intros orders Hc. apply candidate_orders_iff in Hc. congruence.
    - exfalso. exact (candidate_orders_total _ _ E).
  Qed.

  Lemma open_run_cases k img order system w w1 r : run (OpenFilename iter k img order system) w = (w1, r) -> same_files w w1 /\ w_stdout w1 = w_stdout w.
  Proof.
    unfold OpenFilename. destruct (beq img dash); rewrite run_pbind; cbn [run].
    - unfold sys_stdin. destruct (w_stdin w); cbn [run]; unfold plift; cbn [run]; intros E; injection E as <- _; (split; [intros n; reflexivity|reflexivity]).
    - destruct (sys_read (w_fs w img)); cbn [run]; unfold plift; cbn [run]; intros E; injection E as <- _; (split; [intros n; reflexivity|reflexivity]).
  Qed.

  (** Whatever the flag --order, the image and the other arguments. *)
  Lemma dos3_edit_fails k order ft ow addr force img tgt src name w :
    (forall w' r, run (PutCmd_Run iter k order (s2b "dos3") ft ow addr img tgt src) w = (w', r) -> r <> Ok tt /\ same_files w w' /\ w_stdout w' = w_stdout w) /\
    (forall w' r, run (DeleteCmd_Run iter k order (s2b "dos3") force img name) w = (w', r) -> r <> Ok tt /\ same_files w w' /\ w_stdout w' = w_stdout w).
  Proof.
    split; intros w' r.
    - unfold PutCmd_Run. destruct (beq img dash && beq src dash).
      { cbn [run perr]. intros E. injection E as <- <-. split; [discriminate|]. split; [intros n; reflexivity|reflexivity]. }
      rewrite run_pbind. destruct (run (OpenFilename iter k img order (s2b "dos3")) w) as [w1 r1] eqn:E1.
      destruct (open_run_cases _ _ _ _ _ _ _ E1) as [S1 O1].
      destruct r1 as [[op o]|e|]; [|intros E; injection E as <- <-; split; [discriminate|split; assumption]..].
      destruct (open_run iter k _ _ _ _ _ _ _ E1) as (c & _ & Ho & _). destruct (told_dos3 _ _ _ _ _ _ Ho) as [d ->].
      rewrite run_pbind. destruct (run (FileContentsOrStdIn src) w1) as [w3 r3] eqn:E3. destruct (contents_run _ _ _ _ E3) as (S3 & O3 & _).
      assert (same_files w w3) as S4 by (intros m; rewrite (S3 m); apply S1). assert (w_stdout w3 = w_stdout w) as O4 by congruence.
      destruct r3 as [s|e|]; [|intros E; injection E as <- <-; split; [discriminate|split; assumption]..].
      rewrite run_pbind. unfold plift at 1. cbn [run].
      destruct (FiletypeForName ft) as [f|e|]; [|intros E; injection E as <- <-; split; [discriminate|split; assumption]..].
      cbn [Op_PutFile lift_op]. cbn. intros E. injection E as <- <-. split; [discriminate|split; assumption].
    - unfold DeleteCmd_Run. rewrite run_pbind. destruct (run (OpenFilename iter k img order (s2b "dos3")) w) as [w1 r1] eqn:E1.
      destruct (open_run_cases _ _ _ _ _ _ _ E1) as [S1 O1].
      destruct r1 as [[op o]|e|]; [|intros E; injection E as <- <-; split; [discriminate|split; assumption]..].
      destruct (open_run iter k _ _ _ _ _ _ _ E1) as (c & _ & Ho & _). destruct (told_dos3 _ _ _ _ _ _ Ho) as [d ->].
      cbn [Op_Delete lift_op]. cbn. intros E. injection E as <- <-. split; [discriminate|split; assumption].
  Qed.

  (** ** A disk that only ls can be told to read *)
  Definition mark_map : bytes := zset ex_map 272 6.
  Definition mark_disk : bytes := upd (map_disk mark_map) 69632 vtoc_file.
  Lemma mark_len : zlen mark_disk = 143360.
  Proof.
    assert (HZ : zlen (zeros 143360) = 143360) by (apply zlen_zeros; lia). assert (zlen mark_map = 560) by reflexivity. assert (zlen vtoc_file = 256) by reflexivity.
    unfold mark_disk, map_disk. rewrite !zlen_upd by (rewrite ?zlen_upd; lia). exact HZ.
  Qed.
  Lemma mark_floppy : floppy mark_disk mark_map.
  Proof.
    assert (HZ : zlen (zeros 143360) = 143360) by (apply zlen_zeros; lia). assert (Hm : zlen mark_map = 560) by reflexivity. assert (Hv : zlen vtoc_file = 256) by reflexivity.
    destruct (map_disk_floppy mark_map Hm) as [L V M]; [vm_compute; reflexivity|].
    constructor; [exact mark_len|exact V|]. transitivity (stored_map (map_disk mark_map)); [|exact M]. unfold stored_map. apply (znth_ext 0).
    - rewrite !zlen_sub by (rewrite ?mark_len, ?L; lia). reflexivity.
    - intros i Hi. rewrite zlen_sub in Hi by (rewrite ?mark_len; lia). rewrite !znth_sub by lia. unfold mark_disk. rewrite znth_upd by lia.
      rewrite Hv. replace ((69632 <=? 2512 + i) && (2512 + i <? 69632 + 256)) with false by lia. reflexivity.
  Qed.
  Lemma mark_sector : sector mark_disk 17 0 = vtoc_file.
  Proof.
    assert (Hm : zlen mark_map = 560) by reflexivity. assert (Hv : zlen vtoc_file = 256) by reflexivity.
    pose proof (fl_len _ _ (map_disk_floppy mark_map Hm ltac:(vm_compute; reflexivity))) as L.
    unfold sector, offset, mark_disk. change (4096 * 17 + 256 * 0) with 69632. rewrite <- Hv. apply sub_upd_same; lia.
  Qed.
  Lemma mark_file : file_on mark_disk 6 = vtoc_file.
  Proof.
    unfold file_on. rewrite (fl_map _ _ mark_floppy). unfold content. replace (owned mark_map 6) with [272] by (vm_compute; reflexivity).
    cbn [flat_map]. rewrite app_nil_r, <- sector_sec. exact mark_sector.
  Qed.
  Lemma mark_bytes : bytes_ok mark_disk.
  Proof.
    unfold mark_disk, map_disk. apply bytes_ok_upd; [apply bytes_ok_upd; [apply bytes_ok_zeros|]|].
    - apply Dos3StmtProofs.bytes_ok_forallb. vm_compute. reflexivity.
    - apply Dos3StmtProofs.bytes_ok_forallb. vm_compute. reflexivity.
  Qed.
  Lemma vtoc_catalog d : zlen d = 143360 -> sector d 17 0 = vtoc_file -> Dos3Spec.catalog d [].
  Proof.
    intros Hd Hs. split; [unfold Dos3Spec.in_image, offset; lia|]. split.
    - unfold Dos3Spec.vtoc. rewrite Hs. constructor; [vm_compute; discriminate|reflexivity|left; reflexivity|reflexivity|right; reflexivity|reflexivity|reflexivity|].
      assert (forallb (fun t => (znth 0 vtoc_file (56 + 4 * t + 2) =? 0) && (znth 0 vtoc_file (56 + 4 * t + 3) =? 0)) (zrange 50) = true) as H by (vm_compute; reflexivity).
      rewrite forallb_forall in H. intros t Ht. specialize (H t (proj2 (In_zrange _ _) Ht)). cbv beta in H. lia.
    - unfold Dos3Spec.catalog_start, Dos3Spec.vtoc. rewrite Hs. apply Dos3Spec.chain_end.
  Qed.
  Lemma cand_x order : In order order_enum -> exists o, candidates (image_name (s2b "x.do")) order [o] /\ exists l, interleave o l.
  Proof.
    intros [<-|[<-|[<-|[]]]].
    - exists (s2b "do"). split; [apply cand_auto_do; apply ext_is_dec_true; [ascii|reflexivity]|eexists; constructor].
    - exists (s2b "do"). split; [constructor|eexists; constructor].
    - exists (s2b "po"). split; [constructor|eexists; constructor].
  Qed.
  Lemma flags_refuted : ProdosSpec.an_order iter -> exists img c d t, naked_image c (s2b "do") d /\ bytes_ok c /\ names_on d t /\
    numeric (s2b "DF06") 6 /\ file_on d 6 <> [] /\
    forall w, input w img c -> w_outroom w = None ->
      (forall short : bool, eventually (fun fuel => exists fs text, files_on d fs /\ In 6 fs /\
         all_lines (map (if short then shown t else shown_full t) fs) text /\
         prints (LsCmd_Run iter fuel (s2b "do") (s2b "nakedos") short img []) w text)) /\
      forall order system ft ow addr tgt src force name address start, In order order_enum -> In system system_enum ->
        eventually (fun fuel =>
          fails_cleanly (DumpCmd_Run iter fuel order system img name) w /\
          fails_cleanly (DeleteCmd_Run iter fuel order system force img name) w /\
          fails_cleanly (PutCmd_Run iter fuel order system ft ow addr img tgt src) w /\
          fails_cleanly (MkHelloCmd_Run iter fuel order img name address start) w).
  Proof.
    intros Hi. destruct (do_image _ _ mark_floppy) as [c Hc].
    pose proof (NewOperator_floppy _ _ (proj2 Hc)) as En. remember (Op mark_disk (stored_map mark_disk) (opened_table mark_disk (stored_map mark_disk))) as op eqn:Eop.
    assert (bytes_ok c) as Bc by (apply (reordered_bytes _ _ _ _ (reordered_back _ _ _ _ (proj1 Hc))); exact mark_bytes).
    assert (names_on mark_disk (st_of op)) as Hnm by (exists op; split; [exact En|reflexivity]).
    exists (s2b "x.do"), c, mark_disk, (st_of op). split; [exact Hc|]. split; [exact Bc|]. split; [exact Hnm|]. split; [apply numeric_parse; [vm_compute; reflexivity|lia]|].
    assert (file_on mark_disk 6 <> []) as H6 by (rewrite mark_file; discriminate). split; [exact H6|].
    intros w Hin Hw. split.
    - intros short. assert (told_as (s2b "x.do") (s2b "do") c (s2b "nakedos") mark_disk (s2b "do")) as Hfo.
      { split; [exact Bc|]. exists [], []. split; [constructor|]. split; [constructor|]. apply id_naked; apply Hc. }
      eapply eventually_impl; [|exact (ls_told_naked (s2b "x.do") (s2b "do") c mark_disk (s2b "do") (st_of op) short w Hi Hfo Hnm Hin Hw)].
      intros k (fs & text & Hfs & Hl & Hp).
      exists fs, text. split; [exact Hfs|]. split; [apply Hfs; split; [unfold legal; lia|exact H6]|]. split; [exact Hl|exact Hp].
    - intros order system ft ow addr tgt src force name address start Ho Hs.
      destruct (cand_x order Ho) as (o & Hca & l & Hl).
      destruct (reordered_ex c o (s2b "do")) as [d Hd]; [apply Hc|exists l; exact Hl|eexists; constructor|].
      assert (zlen d = 143360) as Hz by apply Hd.
      assert (sector d 17 0 = vtoc_file) as Hv.
      { rewrite (sector_zero _ _ _ _ 17 Hd) by lia. rewrite <- (sector_zero _ _ _ _ 17 (proj1 Hc)) by lia. exact mark_sector. }
      assert (seen_as (s2b "x.do") order c (s2b "dos3") d o) as Hseen.
      { apply (sa_floppy _ _ _ [] o []); [apply Hc|exact Bc|exact Hca|constructor|]. apply ra_dos; [exact Hd|]. exists []. apply vtoc_catalog; assumption. }
      assert (system = s2b "auto" \/ system = s2b "dos3") as Hsys by (destruct Hs as [<-|[<-|[]]]; [left|right]; reflexivity).
      pose proof (dump_dos_none iter (s2b "x.do") order system c d o [] name w Hi Hseen Hsys (reordered_bytes _ _ _ _ Hd Bc) (vtoc_catalog d Hz Hv) Hin) as HD.
      pose proof (change_fails iter (s2b "x.do") order system c (s2b "dos3") d o ft ow addr tgt src force name address start w Hi Hseen ltac:(discriminate) Hsys Hin) as HC.
      eapply eventually_impl; [|exact (eventually_and _ _ (HD ltac:(intros e [])) HC)]. intros k [H1 H2]. split; [exact H1|exact H2].
  Qed.

  (** One image that is a disk of two systems. *)
  Lemma selected_example : exists c d1 d2, told_as (s2b "x.do") (s2b "auto") c (s2b "dos3") d1 (s2b "do") /\
    told_as (s2b "x.do") (s2b "auto") c (s2b "nakedos") d2 (s2b "do") /\ names_on d2 [] /\ file_on d2 6 = vtoc_file.
  Proof.
    destruct (do_image _ _ mark_floppy) as [c Hc]. exists c, c, mark_disk.
    assert (bytes_ok c) as Bc by (apply (reordered_bytes _ _ _ _ (reordered_back _ _ _ _ (proj1 Hc))); exact mark_bytes).
    assert (sector c 17 0 = vtoc_file) as Hs by (rewrite <- (sector_zero _ _ _ _ 17 (proj1 Hc)) by lia; exact mark_sector).
    destruct first_do as [rest Hca]. split; [|split; [|split; [|exact mark_file]]].
    - split; [exact Bc|]. exists [], rest. split; [exact Hca|]. split; [constructor|].
      apply id_dos; [eapply reordered_self; [apply Hc|constructor]|exists []; apply vtoc_catalog; [apply Hc|exact Hs]].
    - split; [exact Bc|]. exists [], rest. split; [exact Hca|]. split; [constructor|]. apply id_naked; apply Hc.
    - pose proof (NewOperator_floppy _ _ (proj2 Hc)) as En. eexists. split; [exact En|].
      assert (opened_table mark_disk (stored_map mark_disk) = None) as ->; [|reflexivity].
      rewrite (fl_map _ _ mark_floppy). unfold opened_table, ReadSymbolTable.
      assert (forall f, owned mark_map f = [] -> ReadFile mark_map mark_disk f = Ok []) as HR.
      { intros f E. rewrite ReadFile_spec by exact mark_len. unfold content. rewrite E. reflexivity. }
      rewrite !HR by (vm_compute; reflexivity). reflexivity.
  Qed.
End Flags.
