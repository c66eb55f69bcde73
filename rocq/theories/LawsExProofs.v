(** LawsExProofs.v -- concrete cases for the laws C101 to C105. *)
From Coq Require Import ZifyBool ZifyNat.
From Verif Require Import GoBase GoLemmas CodecLemmas TypesModel DiskModel DiskSpec DiskProofs DiskOpenProofs.
From Verif Require Import SupermonModel SupermonSpec SupermonTableSpec SupermonStoreSpec SupermonProofs SupermonSymProofs SupermonTabProofs SupermonLinkProofs SupermonOpProofs SupermonNameProofs SupermonFinalProofs SupermonNamedProofs SupermonStmtProofs.
From Verif Require Import ProdosModel CmdModel CmdSpec CmdProofs CmdStmtProofs NakedCmdSpec NakedCmdProofs NakedOpenProofs NakedExProofs DetectSpec DetectProofs PrintProofs ListSpec OpenFuelProofs AfterProofs AfterRmProofs AfterExProofs ReorderProofs MainModel SessionSpec SessionProofs SessionExProofs LawsSpec LawsProofs.
Ltac Zify.zify_post_hook ::= Z.div_mod_to_equations.
Local Opaque zrange zeros sub.

Lemma five_bytes : bytes_ok (map_disk five_map).
Proof.
  unfold map_disk. apply bytes_ok_upd; [apply bytes_ok_zeros|].
  assert (E : forallb (fun x => (0 <=? x) && (x <? 256)) five_map = true) by (vm_compute; reflexivity).
  apply Forall_forall. intros x Hx. rewrite forallb_forall in E. specialize (E x Hx). unfold is_byte. lia.
Qed.
Lemma first_po : first_order (s2b "y.po") (s2b "auto") (s2b "po").
Proof. exists []. apply cand_auto_po. apply ext_is_dec_true; [ascii | reflexivity]. Qed.
Lemma five_image o : (exists l, interleave o l) -> exists c, naked_image c o (map_disk five_map) /\ bytes_ok c /\ release_byte c <> 3.
Proof.
  intros Ho. destruct (reordered_ex (map_disk five_map) (s2b "raw") o (fl_len _ _ five_floppy)) as [c Hc]; [eexists; constructor|exact Ho|].
  assert (naked_image c o (map_disk five_map)) as Hn.
  { split; [apply reordered_back; exact Hc|]. rewrite (fl_map _ _ five_floppy). exact five_floppy. }
  exists c. split; [exact Hn|]. split; [exact (reordered_bytes _ _ _ _ Hc five_bytes)|].
  rewrite <- (release_same _ _ _ _ (proj1 Hn)). unfold release_byte. rewrite map_disk_sector by reflexivity. rewrite znth_zeros; lia.
Qed.

(** A command changes neither the room there is nor the modes of files. *)
Lemma run_keeps {A} (p : prog A) : forall w w' r, run p w = (w', r) ->
  w_room w' = w_room w /\ w_outroom w' = w_outroom w /\
  forall n c rd wr, w_fs w n = NFile c rd wr -> exists c', w_fs w' n = NFile c' rd wr.
Proof.
  induction p as [r0|n k IH|k IH|n k IH|n c k IH|c k IH]; intros w w' r E; cbn [run] in E.
  - injection E as <- _. repeat split. intros n c rd wr H. exists c. exact H.
  - apply (IH _ _ _ _ E).
  - destruct (sys_stdin w) as [w1 r1] eqn:E1. destruct (IH _ _ _ _ E) as (H1 & H2 & H3). unfold sys_stdin in E1.
    destruct (w_stdin w); injection E1 as <- _; repeat split; assumption.
  - apply (IH _ _ _ _ E).
  - destruct (sys_write w n c) as [w1 r1] eqn:E1. destruct (IH _ _ _ _ E) as (H1 & H2 & H3). unfold sys_write in E1. cbv zeta in E1.
    assert (w_room w1 = w_room w /\ w_outroom w1 = w_outroom w /\ forall m c0 rd wr, w_fs w m = NFile c0 rd wr -> exists c', w_fs w1 m = NFile c' rd wr) as (G1 & G2 & G3).
    { destruct (can_write (w_fs w n)); [destruct (fits (w_room w) c)|]; injection E1 as <- _; cbn [set_fs w_room w_outroom w_fs]; repeat split; intros m c0 rd wr H.
      - destruct (beq m n) eqn:B; [apply beq_eq in B; subst m; rewrite H; eexists; reflexivity|eexists; exact H].
      - destruct (beq m n) eqn:B; [apply beq_eq in B; subst m; rewrite H; eexists; reflexivity|eexists; exact H].
      - eexists; exact H. }
    split; [congruence|]. split; [congruence|]. intros m c0 rd wr H. destruct (G3 _ _ _ _ H) as [c1 Hc1]. exact (H3 _ _ _ _ Hc1).
  - destruct (sys_stdout w c) as [w1 r1] eqn:E1. destruct (IH _ _ _ _ E) as (H1 & H2 & H3). unfold sys_stdout in E1.
    destruct (fits _ _); injection E1 as <- _; repeat split; assumption.
Qed.

Lemma no_table d m : floppy d m -> owned m 3 = [] -> opened_table d m = None.
Proof.
  intros Hf H3. unfold opened_table. destruct (ReadSymbolTable m d) as [t|e|] eqn:ER; [|reflexivity|reflexivity]. exfalso.
  destruct (table_files _ _ _ (fl_len _ _ Hf) ER) as [T3 _]. revert T3. rewrite H3, (@zlen_nil Z). lia.
Qed.
Lemma five_table : opened_table (map_disk five_map) five_map = None.
Proof. apply no_table; [exact five_floppy|vm_compute; reflexivity]. Qed.
Lemma five_names : names_on (map_disk five_map) [].
Proof.
  eexists. split; [apply (NewOperator_floppy _ five_map); exact five_floppy|]. unfold st_of. cbn [op_ST]. rewrite five_table. reflexivity.
Qed.
Lemma session_length ps : forall w, length (snd (session ps w)) = length ps.
Proof.
  induction ps as [|p ps IH]; intros w; [reflexivity|]. cbn [session]. destruct (main_run p (quiet w)) as [w1 s].
  specialize (IH w1). destruct (session ps w1) as [w2 l]. cbn [snd length] in *. rewrite IH. reflexivity.
Qed.

Section LawsEx.
  Context (iter : list (Z * Subdirectory) -> list (Z * Subdirectory)).

  (** put DF06 on a disk that has no file 6. *)
  Lemma put_six_of fuel s : s <> [] -> nsec s = 2 -> bytes_ok s -> exists c w w' new d',
    w = two_files (s2b "x.do") c (s2b "f") s /\ naked_image c (s2b "do") (map_disk five_map) /\ bytes_ok c /\ release_byte c <> 3 /\
    input w (s2b "x.do") c /\ input w (s2b "f") s /\ w_room w = None /\ w_outroom w = None /\ numeric (s2b "DF06") 6 /\
    run (PutCmd_Run iter fuel (s2b "auto") (s2b "auto") (s2b "B") false 0 (s2b "x.do") (s2b "DF06") (s2b "f")) w = (w', Ok tt) /\
    output w w' (s2b "x.do") new /\ naked_image new (s2b "do") d' /\ seen_as (s2b "x.do") (s2b "auto") new (s2b "nakedos") d' (s2b "do") /\
    w_fs w' (s2b "x.do") = NFile new true true /\ w_fs w' (s2b "f") = NFile s true true /\ w_room w' = None /\ w_outroom w' = None /\
    input w' (s2b "x.do") new /\ input w' (s2b "f") s /\ can_output w' (s2b "x.do") true /\ file_on d' 6 = padded s.
  Proof.
    intros Hne Hns Hbs. destruct (five_image (s2b "do") ltac:(eexists; constructor)) as (c & Hc & Hb & Hrel).
    destruct (open_naked iter fuel c (s2b "do") _ (s2b "x.do") (s2b "auto") first_do Hc Hrel) as (op & Eo & En).
    destruct (NewOperator_ok _ _ (fl_len _ _ five_floppy) En) as (Hok & Ed & Em & _). rewrite (fl_map _ _ five_floppy) in Em.
    assert (Hn : numeric (s2b "DF06") 6) by (apply numeric_parse; [vm_compute; reflexivity|discriminate]).
    assert (HP : exists op' ex, PutFile (FI (Desc (s2b "DF06") [] 0 0 (zlen s) false FiletypeBinary) s 0) false op = (op', Ok ex) /\ release_byte (op_data op') = 0 /\
      bytes_ok (op_data op') /\ content (op_data op') (op_SM op') 6 = padded s /\ op_ok op').
    { match goal with |- exists op' ex, PutFile ?i _ _ = _ /\ _ => pose proof (PutFile_numeric i false op 6 Hok Hn Hne eq_refl eq_refl) as HP;
        pose proof (fun op' ex => PutFile_bytes i false op op' ex Hok ltac:(rewrite Ed; exact five_bytes) (opened_addrs _ _ (fl_len _ _ five_floppy) five_bytes En) Hne Hbs) as HB;
        pose proof (fun op' r => PutFile_inv i false op op' r Hok Hne) as HI end.
      cbn [fi_data] in HP. unfold on_disk in HP.
      assert (Hl6 : legal 6) by (unfold legal; lia).
      destruct (WriteFile_cases 6 s false (op_data op) (op_SM op) (ok_fl _ Hok) Hl6 Hne) as [(H & _)|[(_ & H & _)|(_ & _ & d' & sm' & E & Hfl & Hcc & Ho & Hfr & Hoth)]].
      - exfalso. rewrite Em, Hns in H. vm_compute in H. discriminate H.
      - exfalso. apply H. rewrite Em. vm_compute. reflexivity.
      - rewrite E in HP. rewrite HP. eexists _, _. split; [reflexivity|]. split.
        + cbn [op_data]. destruct (Hoth 5 ltac:(lia) ltac:(unfold legal; lia)) as [H5 H6]. destruct five_content as [F1 F2].
          apply (five_release d' sm'); [rewrite H5, Em; exact F1|rewrite H6, Em, Ed; exact F2].
        + split; [apply (HB _ _ HP)|]. split; [exact Hcc|]. apply (HI _ _ HP). }
    destruct HP as (op' & ex & EP & Hr' & Hb' & Hc6 & Hok').
    remember (two_files (s2b "x.do") c (s2b "f") s) as w eqn:Ew.
    assert (Hi : input w (s2b "x.do") c) by (right; split; [discriminate|]; exists true; rewrite Ew; reflexivity).
    assert (Hf : input w (s2b "f") s) by (right; split; [discriminate|]; exists true; rewrite Ew; reflexivity).
    assert (Hr1 : w_room w = None) by (rewrite Ew; reflexivity). assert (Hr2 : w_outroom w = None) by (rewrite Ew; reflexivity).
    assert (Hm1 : w_fs w (s2b "x.do") = NFile c true true) by (rewrite Ew; reflexivity).
    assert (Hm2 : w_fs w (s2b "f") = NFile s true true) by (rewrite Ew; reflexivity).
    destruct (put_ok_run iter fuel (s2b "auto") (s2b "auto") (s2b "B") false 0 (s2b "x.do") (s2b "DF06") (s2b "f") w s c op (s2b "do") op' ex
      Hi ltac:(discriminate) Hf Hne Eo ltac:(vm_compute; reflexivity) EP Hr1 Hr2) as (w' & new & Er & Hout & Hnew).
    { right. split; [discriminate|]. split; [|left; reflexivity]. right. eexists _, _. exact Hm1. }
    destruct (run_keeps _ _ _ _ Er) as (K1 & K2 & K3). destruct (K3 _ _ _ _ Hm1) as [c1 Hc1].
    assert (w_fs w' (s2b "x.do") = NFile new true true) as Hf1.
    { destruct Hout as [[Hx _]|(_ & _ & (rd & wr & Hx) & _)]; [discriminate Hx|]. rewrite Hx in Hc1. injection Hc1 as E1 E2 E3. rewrite Hx, E2, E3. reflexivity. }
    assert (w_fs w' (s2b "f") = NFile s true true) as Hf2.
    { destruct Hout as [[Hx _]|(_ & Hx & _)]; [discriminate Hx|]. rewrite Hx by discriminate. exact Hm2. }
    exists c, w, w', new, (op_data op'). rewrite <- Ew. split; [reflexivity|]. split; [exact Hc|]. split; [exact Hb|]. split; [exact Hrel|]. split; [exact Hi|]. split; [exact Hf|].
    split; [exact Hr1|]. split; [exact Hr2|]. split; [exact Hn|]. split; [exact Er|]. split; [exact Hout|]. split; [exact Hnew|].
    split. { apply (still_seen _ _ _ _ _ first_do Hnew); [rewrite <- (release_same _ _ _ _ (proj1 Hnew)), Hr'; lia|].
             apply (reordered_bytes _ _ _ _ (reordered_back _ _ _ _ (proj1 Hnew)) Hb'). }
    split; [exact Hf1|]. split; [exact Hf2|]. split; [congruence|]. split; [congruence|].
    split; [right; split; [discriminate|exists true; exact Hf1]|]. split; [right; split; [discriminate|exists true; exact Hf2]|].
    split; [right; split; [discriminate|]; split; [right; eexists _, _; exact Hf1|left; reflexivity]|].
    unfold file_on. rewrite (fl_map _ _ (ok_fl _ Hok')). exact Hc6.
  Qed.
  Lemma put_six fuel : exists c w w' new d',
    w = two_files (s2b "x.do") c (s2b "f") (repeat 7 300) /\ naked_image c (s2b "do") (map_disk five_map) /\ bytes_ok c /\ release_byte c <> 3 /\
    input w (s2b "x.do") c /\ input w (s2b "f") (repeat 7 300) /\ w_room w = None /\ w_outroom w = None /\ numeric (s2b "DF06") 6 /\
    run (PutCmd_Run iter fuel (s2b "auto") (s2b "auto") (s2b "B") false 0 (s2b "x.do") (s2b "DF06") (s2b "f")) w = (w', Ok tt) /\
    output w w' (s2b "x.do") new /\ naked_image new (s2b "do") d' /\ seen_as (s2b "x.do") (s2b "auto") new (s2b "nakedos") d' (s2b "do") /\
    w_fs w' (s2b "x.do") = NFile new true true /\ w_fs w' (s2b "f") = NFile (repeat 7 300) true true /\ w_room w' = None /\ w_outroom w' = None /\
    input w' (s2b "x.do") new /\ input w' (s2b "f") (repeat 7 300) /\ can_output w' (s2b "x.do") true /\ file_on d' 6 = padded (repeat 7 300).
  Proof.
    apply put_six_of; [discriminate|vm_compute; reflexivity|].
    apply Forall_forall; intros x Hx; apply repeat_spec in Hx; subst x; unfold is_byte; lia.
  Qed.

  (** put DF06, and again: the image is the same. *)
  Lemma put_again_example fuel : ProdosSpec.an_order iter -> exists w w' new,
    run (PutCmd_Run iter fuel (s2b "auto") (s2b "auto") (s2b "B") false 0 (s2b "x.do") (s2b "DF06") (s2b "f")) w = (w', Ok tt) /\
    holds w' (s2b "x.do") new /\ ~ holds w (s2b "x.do") new /\
    eventually (fun k => exists w3, run (PutCmd_Run iter k (s2b "auto") (s2b "auto") (s2b "B") true 0 (s2b "x.do") (s2b "DF06") (s2b "f")) w' = (w3, Ok tt) /\
      holds w3 (s2b "x.do") new).
  Proof.
    intros Hit. destruct (put_six fuel) as (c & w & w' & new & d' & Ew & Hc & Hb & Hrel & Hi & Hf & Hr1 & Hr2 & Hn & Er & Hout & Hnew & Hseen & Hf1 & Hf2 & K1 & K2 & Hi' & Hs' & Hco & Hne6).
    assert (repeat 7 300 <> []) as Hne by discriminate.
    destruct (put_again iter fuel _ _ _ _ _ _ _ _ _ _ _ Er Hf Hne) as (c0 & o & d & t & d0 & new0 & Hc0 & Hni0 & Hos & Hnm & Hout0 & Hnew0 & HX).
    assert (new0 = new) as -> by exact (output_fun w w' (s2b "x.do") _ _ ltac:(discriminate) Hout0 Hout).
    assert (c0 = c) as -> by exact (input_fun w (s2b "x.do") _ _ ltac:(discriminate) Hc0 Hi).
    destruct (Hos Hit _ _ _ (still_seen _ _ _ _ _ first_do Hc Hrel Hb) (or_introl eq_refl)) as (_ & Eo & Ed). subst o d.
    assert (d0 = d') as -> by exact (reordered_fun _ _ _ _ _ (proj1 Hnew0) (proj1 Hnew)).
    exists w, w', new. split; [exact Er|]. split; [exists true, true; exact Hf1|].
    split.
    { intros (rd & wr & Hx). rewrite Ew in Hx. cbn in Hx. injection Hx as Hx _ _. subst new.
      assert (d' = map_disk five_map) as Ex by exact (reordered_fun _ _ _ _ _ (proj1 Hnew) (proj1 Hc)). revert Hne6. rewrite Ex.
      intros Hne6. apply (padded_nonempty (repeat 7 300) Hne). rewrite <- Hne6.
      unfold file_on. rewrite (fl_map _ _ five_floppy). unfold content. replace (owned five_map 6) with (@nil Z) by (vm_compute; reflexivity). reflexivity. }
    eapply eventually_impl; [|exact (HX 6 (numeric_no_colon _ _ Hn) (or_introl Hn) (or_introl Hn) (s2b "auto") (s2b "auto") 0 (s2b "x.do") (s2b "f") w'
      (or_introl eq_refl) Hit Hseen Hi' ltac:(discriminate) Hs' K1 K2 Hco)].
    intros k (w3 & Er3 & Hout3). exists w3. split; [exact Er3|]. destruct Hout3 as [[Hx _]|(_ & _ & Hx & _)]; [discriminate Hx|exact Hx].
  Qed.

  (** put DF06, then rm 06: the sector map is as it was. *)
  Lemma put_rm_example fuel : ProdosSpec.an_order iter -> exists w w',
    run (PutCmd_Run iter fuel (s2b "auto") (s2b "auto") (s2b "B") false 0 (s2b "x.do") (s2b "DF06") (s2b "f")) w = (w', Ok tt) /\
    eventually (fun k => exists w3 new2 d2, run (DeleteCmd_Run iter k (s2b "auto") (s2b "auto") false (s2b "x.do") (s2b "06")) w' = (w3, Ok tt) /\
      holds w3 (s2b "x.do") new2 /\ naked_image new2 (s2b "do") d2 /\ stored_map d2 = five_map).
  Proof.
    intros Hit. destruct (put_six fuel) as (c & w & w' & new & d' & Ew & Hc & Hb & Hrel & Hi & Hf & Hr1 & Hr2 & Hn & Er & Hout & Hnew & Hseen & Hf1 & Hf2 & K1 & K2 & Hi' & Hs' & Hco & Hne6).
    assert (repeat 7 300 <> []) as Hne by discriminate.
    destruct (put_rm iter fuel _ _ _ _ _ _ _ _ _ _ _ _ Er Hf Hne Hn) as (c0 & o & d & t & d0 & new0 & Hc0 & Hni0 & Hos & Hnm & Hout0 & Hnew0 & HX).
    assert (new0 = new) as -> by exact (output_fun w w' (s2b "x.do") _ _ ltac:(discriminate) Hout0 Hout).
    assert (c0 = c) as -> by exact (input_fun w (s2b "x.do") _ _ ltac:(discriminate) Hc0 Hi).
    destruct (Hos Hit _ _ _ (still_seen _ _ _ _ _ first_do Hc Hrel Hb) (or_introl eq_refl)) as (_ & Eo & Ed). subst o d.
    assert (d0 = d') as -> by exact (reordered_fun _ _ _ _ _ (proj1 Hnew0) (proj1 Hnew)).
    assert (file_on (map_disk five_map) 6 = []) as H6.
    { unfold file_on. rewrite (fl_map _ _ five_floppy). unfold content. replace (owned five_map 6) with (@nil Z) by (vm_compute; reflexivity). reflexivity. }
    assert (t = []) as -> by exact (names_det _ _ _ Hnm five_names).
    assert (numeric (s2b "06") 6) as Hn2 by (apply numeric_parse; [vm_compute; reflexivity|discriminate]).
    exists w, w'. split; [exact Er|].
    eapply eventually_impl; [|exact (HX ltac:(lia) ltac:(lia) H6 (s2b "auto") (s2b "auto") false (s2b "x.do") (s2b "06") w'
      (or_introl eq_refl) Hit Hn2 ltac:(intros i Hx; rewrite (@zlen_nil Symbol) in Hx; lia) Hseen Hi' ltac:(discriminate) K1 K2 Hco)].
    intros k (w3 & new2 & d2 & Er3 & Hout3 & Hn3 & _ & Hm & Hsec). exists w3, new2, d2. split; [exact Er3|].
    split; [destruct Hout3 as [[Hx _]|(_ & _ & Hx & _)]; [discriminate Hx|exact Hx]|]. split; [exact Hn3|].
    rewrite (fl_map _ _ five_floppy) in Hm. exact Hm.
  Qed.

  (** The same disk in x.do and in y.po: rm DF05 does the same to both. *)
  Lemma edits_reorder_example : ProdosSpec.an_order iter -> exists w1 w2,
    eventually (fun k => exists w1' w2' new1 new2,
      run (edit_command iter k (s2b "auto") (s2b "auto") (s2b "x.do") (ERm false (s2b "DF05"))) w1 = (w1', Ok tt) /\
      run (edit_command iter k (s2b "auto") (s2b "auto") (s2b "y.po") (ERm false (s2b "DF05"))) w2 = (w2', Ok tt) /\
      holds w1' (s2b "x.do") new1 /\ holds w2' (s2b "y.po") new2 /\ reordered new1 (s2b "do") (s2b "po") new2).
  Proof.
    intros Hit. destruct (five_image (s2b "do") ltac:(eexists; constructor)) as (c1 & Hc1 & Hb1 & Hrel1).
    destruct (five_image (s2b "po") ltac:(eexists; constructor)) as (c2 & Hc2 & Hb2 & Hrel2).
    pose proof (still_seen _ _ _ _ _ first_do Hc1 Hrel1 Hb1) as S1. pose proof (still_seen _ _ _ _ _ first_po Hc2 Hrel2 Hb2) as S2.
    remember (one_file (s2b "x.do") c1 None) as w1 eqn:E1. remember (one_file (s2b "y.po") c2 None) as w2 eqn:E2.
    assert (input w1 (s2b "x.do") c1) as I1 by (right; split; [discriminate|]; exists true; rewrite E1; reflexivity).
    assert (input w2 (s2b "y.po") c2) as I2 by (right; split; [discriminate|]; exists true; rewrite E2; reflexivity).
    exists w1, w2.
    assert (can_output w1 (s2b "x.do") true) as C1 by (right; split; [discriminate|]; split; [right; eexists _, _; rewrite E1; reflexivity|left; reflexivity]).
    assert (can_output w2 (s2b "y.po") true) as C2 by (right; split; [discriminate|]; split; [right; eexists _, _; rewrite E2; reflexivity|left; reflexivity]).
    pose proof (edits_reorder iter (ERm false (s2b "DF05")) _ _ (s2b "auto") _ _ w1 _ _ (s2b "auto") _ _ w2 _ Hit S1 S2 (or_introl eq_refl) (or_introl eq_refl) I1 I2
      ltac:(discriminate) ltac:(discriminate) I ltac:(rewrite E1; reflexivity) ltac:(rewrite E1; reflexivity) C1 ltac:(rewrite E2; reflexivity) ltac:(rewrite E2; reflexivity) C2) as HE.
    eapply eventually_impl; [|exact (eventually_and _ _ HE (opens iter _ _ _ _ _ _ _ Hit S1 (or_introl eq_refl)))].
    intros k ((w1' & w2' & r & R1 & R2 & HC) & (op & Ho & Hop)). inversion Hop as [| dd op4 En4 X1 X2|]; subst op dd.
    destruct (NewOperator_ok _ _ (fl_len _ _ five_floppy) En4) as (Hok & Ed & Em & Et). rewrite (fl_map _ _ five_floppy) in Em, Et.
    assert (r = Ok tt) as ->.
    { assert (numeric (s2b "DF05") 5) as Hn5 by (apply numeric_parse; [vm_compute; reflexivity|discriminate]).
      destruct (Delete_disk (op_data op4) (op_SM op4) 5 (ok_fl _ Hok) (proj1 Hn5)) as (EP & _).
      assert (exists op', Delete (s2b "DF05") op4 = (op', Ok true)) as [op' ED].
      { unfold Delete. assert (FileForName (st_of op4) (s2b "DF05") = Ok 5) as -> by (apply FileForName_resolves; left; exact Hn5).
        cbv zeta. rewrite EP. rewrite SectorsForFile_owned, zlen_map, Em. replace (0 <? zlen (owned five_map 5)) with true by (vm_compute; reflexivity).
        assert (op_ST op4 = None) as ->; [|eexists; reflexivity].
        rewrite Et. exact five_table. }
      destruct (rm_ok_run iter k (s2b "auto") (s2b "auto") false (s2b "x.do") (s2b "DF05") w1 c1 op4 (s2b "do") op' true I1 ltac:(discriminate) Ho ED eq_refl) as (v & nn & Rv & _);
        [rewrite E1; reflexivity|rewrite E1; reflexivity|exact C1|].
      cbn [edit_command] in R1. rewrite R1 in Rv. apply pair_equal_spec in Rv as [_ Rv]. exact Rv. }
    destruct HC as [(_ & n1 & n2 & O1 & O2 & HR)|(HF & _)]; [|contradiction (HF eq_refl)].
    exists w1', w2', n1, n2. split; [exact R1|]. split; [exact R2|].
    split; [destruct O1 as [[Hx _]|(_ & _ & Hx & _)]; [discriminate Hx|exact Hx]|].
    split; [destruct O2 as [[Hx _]|(_ & _ & Hx & _)]; [discriminate Hx|exact Hx]|]. exact HR.
  Qed.

  (** The session of C95 without its second listing: the other outcomes are the same. *)
  Lemma peek_example fuel : exists w w' v,
    let cmd := fun af : action * option Z => command iter fuel (s2b "auto") (s2b "x.do") (fst af) in
    session (map cmd day) w = (w', day_outcomes) /\
    session (map cmd (firstn 5 day) ++ map cmd (skipn 6 day)) w = (v, firstn 5 day_outcomes ++ skipn 6 day_outcomes) /\ same_files v w'.
  Proof.
    destruct (day_example iter fuel) as (w & w' & E). exists w, w'.
    remember (fun af : action * option Z => command iter fuel (s2b "auto") (s2b "x.do") (fst af)) as cmd eqn:Ec.
    assert (map cmd day = map cmd (firstn 5 day) ++ cmd (ALs true, None) :: map cmd (skipn 6 day)) as Ed by reflexivity.
    destruct (session (map cmd (firstn 5 day)) w) as [w1 l1] eqn:E1. destruct (session (map cmd (skipn 6 day)) w1) as [v2 l2] eqn:E2.
    assert (peeks iter fuel (cmd (ALs true, None))) as Hp by (rewrite Ec; apply pk_ls; discriminate).
    destruct (peek_inserted iter fuel _ _ _ w _ l1 w1 v2 l2 Hp E1 E2 eq_refl) as (S1 & v' & S2 & Hs).
    rewrite Ed in E. rewrite E in S2. injection S2 as -> HL.
    assert (length l1 = 5%nat) as N1 by (pose proof (session_length (map cmd (firstn 5 day)) w) as H; rewrite E1 in H; exact H).
    exists v2. cbv zeta. split; [rewrite Ed; exact E|]. split; [|exact Hs]. rewrite S1. f_equal. rewrite HL.
    rewrite <- N1 at 1. rewrite firstn_app, firstn_all, Nat.sub_diag, firstn_O, app_nil_r. f_equal.
    replace 6%nat with (length l1 + 1)%nat by lia. rewrite skipn_app, skipn_all2 by lia.
    replace (length l1 + 1 - length l1)%nat with 1%nat by lia. reflexivity.
  Qed.

  (** File 6 of one disk put on another as file 6. *)
  Lemma copied_example fuel : ProdosSpec.an_order iter -> exists wA w w' data,
    eventually (fun k => prints (DumpCmd_Run iter k (s2b "auto") (s2b "auto") (s2b "x.do") (s2b "06")) wA data) /\
    holds w (s2b "f") data /\
    run (PutCmd_Run iter fuel (s2b "auto") (s2b "auto") (s2b "B") false 0 (s2b "x.do") (s2b "DF06") (s2b "f")) w = (w', Ok tt) /\
    eventually (fun k => prints (DumpCmd_Run iter k (s2b "auto") (s2b "auto") (s2b "x.do") (s2b "DF06")) w' data).
  Proof.
    intros Hit. destruct (put_six fuel) as (c & w & w' & new & d' & Ew & Hc & Hb & Hrel & Hi & Hf & Hr1 & Hr2 & Hn & Er & Hout & Hnew & Hseen & Hf1 & Hf2 & K1 & K2 & Hi' & Hs' & Hco & H6).
    assert (numeric (s2b "06") 6) as Hn2 by (apply numeric_parse; [vm_compute; reflexivity|discriminate]).
    assert (padded (repeat 7 300) <> []) as Hp0 by (apply padded_nonempty; discriminate).
    remember (padded (repeat 7 300)) as s eqn:Es.
    assert (s = repeat 7 300 ++ repeat 0 212) as Es2 by (rewrite Es; vm_compute; reflexivity).
    assert (nsec s = 2) as Hns by (rewrite Es2; vm_compute; reflexivity).
    assert (bytes_ok s) as Hbs.
    { rewrite Es2. apply Forall_forall. intros x Hx. apply in_app_or in Hx as [Hx|Hx]; apply repeat_spec in Hx; subst x; unfold is_byte; lia. }
    destruct (put_six_of fuel s Hp0 Hns Hbs) as (c2 & v & v' & new2 & d2 & Ev & Gc & Gb & Grel & Gi & Gf & Gr1 & Gr2 & Gn & Gr & Gout & Gnew & Gseen & Gf1 & Gf2 & L1 & L2 & Gi' & Gs' & Gco & G6).
    exists w', v, v', s.
    pose proof (names_opened _ (proj2 Hnew)) as HtA. remember (match ReadSymbolTable (stored_map d') d' with Ok t => t | _ => [] end) as tA eqn:EtA. clear EtA.
    pose proof (copied iter _ (s2b "auto") _ _ _ _ tA (s2b "06") 6 w' fuel _ _ _ _ _ _ _ _ v v' Hit Hseen (or_introl eq_refl) HtA Hi' K2 (or_introl Hn2) ltac:(rewrite H6; exact Hp0) Gr ltac:(rewrite H6; exact Gf)) as HC.
    rewrite H6 in HC. destruct HC as (D1 & c0 & o & d & t & d0 & new0 & Hc0 & Hni0 & Hos & Hnm & Hout0 & Hnew0 & HX).
    split; [exact D1|]. split; [destruct Gf as [[Hx _]|[_ [q Hx]]]; [discriminate Hx|eexists _, _; exact Hx]|]. split; [exact Gr|].
    assert (new0 = new2) as -> by exact (output_fun v v' (s2b "x.do") _ _ ltac:(discriminate) Hout0 Gout).
    assert (c0 = c2) as -> by exact (input_fun v (s2b "x.do") _ _ ltac:(discriminate) Hc0 Gi).
    destruct (Hos _ _ _ (still_seen _ _ _ _ _ first_do Gc Grel Gb) (or_introl eq_refl)) as (_ & Eo & Ed). subst o d.
    assert (d0 = d2) as -> by exact (reordered_fun _ _ _ _ _ (proj1 Hnew0) (proj1 Gnew)).
    destruct (HX 6 (numeric_no_colon _ _ Gn) (or_introl Gn) ltac:(discriminate) ltac:(discriminate)) as [_ HY].
    exact (HY (s2b "auto") v' (or_introl eq_refl) Gseen Gi' L2).
  Qed.
End LawsEx.
