(** NakedCmdProofs.v -- commands on NakedOS images. *)
From Verif Require Import GoBase GoLemmas TypesModel DiskModel DiskSpec DiskProofs DiskOpenProofs.
From Verif Require Import SupermonModel SupermonSpec SupermonTableSpec SupermonStoreSpec SupermonProofs SupermonSymProofs SupermonTabProofs SupermonLinkProofs SupermonNameProofs
  SupermonOpProofs SupermonNamedProofs SupermonFinalProofs SupermonStmtProofs.
From Verif Require Import Dos3Model ProdosModel CmdModel CmdSpec CmdProofs CmdStmtProofs NakedCmdSpec.
From Coq Require Import ZifyBool ZifyNat.
Ltac Zify.zify_post_hook ::= Z.div_mod_to_equations.
Local Opaque zrange zeros sub.

Section Naked.
  Context (iter : list (Z * Subdirectory) -> list (Z * Subdirectory)) (fuel : nat).

  Lemma facs_order f : In f (DiskOperatorFactories iter fuel) -> exists l, interleave (f_order f) l.
  Proof. intros H. destruct (C05_factories_lemma iter fuel) as (H1 & _). apply known_order, H1, H. Qed.

  (** ** Opening *)
  Lemma open_run img order system w w1 op o :
    run (OpenFilename iter fuel img order system) w = (w1, Ok (op, o)) ->
    exists c, input w img c /\ OpenImage c (image_name img) order system (DiskOperatorFactories iter fuel) = Ok (op, o) /\
      same_files w w1 /\ w_stdout w1 = w_stdout w /\ w_room w1 = w_room w /\ w_outroom w1 = w_outroom w /\
      (img <> s2b "-" -> w1 = w).
  Proof.
    unfold OpenFilename, image_name. change dash with (s2b "-"). destruct (beq img (s2b "-")) eqn:E.
    - apply beq_eq in E. subst img. rewrite run_pbind. cbn [run]. unfold sys_stdin.
      destruct (w_stdin w) as [c|] eqn:Es; cbn [run]; [|discriminate].
      intros H. injection H as <- H. exists c. split; [left; split; [reflexivity|exact Es]|]. split; [exact H|].
      split; [intros n; reflexivity|]. split; [reflexivity|]. split; [reflexivity|]. split; [reflexivity|].
      intros Hn. contradiction Hn. reflexivity.
    - rewrite run_pbind. cbn [run]. destruct (sys_read (w_fs w img)) as [c|e|] eqn:Er; cbn [run]; [|discriminate|discriminate].
      intros H. injection H as <- H. exists c.
      assert (Hn : img <> s2b "-") by (intros ->; rewrite beq_refl in E; discriminate).
      split.
      { right. split; [exact Hn|]. unfold readable. destruct (w_fs w img) as [| |c0 [|] wr|]; cbn [sys_read] in Er; try discriminate.
        injection Er as <-. exists wr. reflexivity. }
      split; [exact H|]. split; [apply same_files_refl|]. split; [reflexivity|]. split; [reflexivity|]. split; [reflexivity|].
      intros _. reflexivity.
  Qed.
  Lemma open_run_ok img order system w c op o : input w img c ->
    OpenImage c (image_name img) order system (DiskOperatorFactories iter fuel) = Ok (op, o) ->
    exists w1, run (OpenFilename iter fuel img order system) w = (w1, Ok (op, o)) /\
      same_files w w1 /\ w_stdout w1 = w_stdout w /\ w_room w1 = w_room w /\ w_outroom w1 = w_outroom w /\
      (img <> s2b "-" -> w1 = w).
  Proof.
    intros Hi Ho. unfold OpenFilename, image_name in *. change dash with (s2b "-").
    destruct Hi as [[-> Hs]|[Hn [wr Hf]]].
    - rewrite beq_refl in *. rewrite run_pbind. cbn [run]. unfold sys_stdin. rewrite Hs. cbn [run]. unfold plift. cbn [run].
      rewrite Ho. eexists. split; [reflexivity|]. split; [intros n; reflexivity|]. split; [reflexivity|]. split; [reflexivity|].
      split; [reflexivity|]. intros H. contradiction H. reflexivity.
    - rewrite (beq_false _ _ Hn) in *. rewrite run_pbind. cbn [run]. rewrite Hf. cbn [sys_read]. unfold plift. cbn [run].
      rewrite Ho. eexists. split; [reflexivity|]. split; [apply same_files_refl|]. split; [reflexivity|]. split; [reflexivity|].
      split; [reflexivity|]. intros _. reflexivity.
  Qed.

  Lemma naked_operator f d op : In f (DiskOperatorFactories iter fuel) -> f_operator f d = Ok (ONaked op) ->
    f_order f = s2b "raw" /\ NewOperator d = Ok op.
  Proof.
    intros [<-|[<-|[<-|[]]]] H; cbn [f_operator dos3_factory nakedos_factory prodos_factory] in H.
    - unfold rmap in H. destruct (dos3_Operator d); cbn [rbind] in H; discriminate.
    - split; [reflexivity|]. unfold rmap in H. cbn [f_operator supermon_factory] in H.
      destruct (NewOperator d) as [o|e|]; cbn [rbind] in H; [|discriminate|discriminate]. injection H as <-. reflexivity.
    - unfold rmap in H. destruct (prodos_Operator d); cbn [rbind] in H; discriminate.
  Qed.

  Lemma naked_opened c name order system op o :
    OpenImage c name order system (DiskOperatorFactories iter fuel) = Ok (ONaked op, o) ->
    zlen c = 143360 /\ reordered c o (s2b "raw") (op_data op) /\ NewOperator (op_data op) = Ok op /\
    zlen (op_data op) = 143360 /\ reached op /\ naked_image c o (op_data op) /\ op_SM op = stored_map (op_data op) /\
    names_on (op_data op) (st_of op).
  Proof.
    intros H. destruct (Z.eq_dec (zlen c) 143360) as [Hc|Hc].
    - apply open_floppy_sound in H as (f & d & Hin & Hr & Hop); [|exact Hc|exact facs_order].
      destruct (naked_operator f d op Hin Hop) as [Ef En]. rewrite Ef in Hr.
      assert (Hd : zlen d = 143360) by apply Hr.
      destruct (NewOperator_ok d op Hd En) as ([Hfl _] & Ed & Em & Et). subst d.
      split; [exact Hc|]. split; [exact Hr|]. split; [exact En|]. split; [exact Hd|].
      split; [apply (reached_open _ _ Hd En)|]. split; [split; [exact Hr|rewrite <- Em; exact Hfl]|]. split; [exact Em|].
      exists op. split; [exact En|reflexivity].
    - apply open_hdv in H; [|exact Hc]. destruct H as (_ & _ & _ & _ & _ & _ & _ & l1 & f & l2 & El & _ & Hn & Hop).
      assert (In f (DiskOperatorFactories iter fuel)) as Hin by (rewrite El; apply in_or_app; right; left; reflexivity).
      destruct Hin as [<-|[<-|[<-|[]]]]; [discriminate Hn|discriminate Hn|]. cbn [f_operator prodos_factory] in Hop. unfold rmap in Hop.
      destruct (prodos_Operator c); cbn [rbind] in Hop; discriminate.
  Qed.

  Lemma try_factories_order sw single system order (facs : list (factory AnyOp)) op o :
    try_factories sw single system order facs = Some (Ok (op, o)) -> o = order.
  Proof.
    induction facs as [|f facs IH]; cbn [try_factories]; [discriminate|].
    destruct (Swizzle sw _) as [d|e|]; [|discriminate|discriminate].
    destruct (single && _).
    { destruct (f_operator f d); cbn [rbind]; intros H; [|discriminate|discriminate]. injection H as _ H. symmetry. exact H. }
    destruct (f_seems f d) as [[|]|]; [|exact IH|discriminate].
    destruct (f_operator f d); [|exact IH|discriminate]. intros H. injection H as _ H. symmetry. exact H.
  Qed.
  Lemma try_orders_order c single system (facs : list (factory AnyOp)) orders op o :
    try_orders c single system facs orders = Ok (op, o) -> In o orders.
  Proof.
    induction orders as [|o1 orders IH]; cbn [try_orders]; [discriminate|].
    destruct (Swizzle c _) as [d|e|]; [|discriminate|discriminate].
    destruct (try_factories d single system o1 facs) as [r|] eqn:E; [|intros H; right; exact (IH H)].
    intros ->. apply try_factories_order in E. left. symmetry. exact E.
  Qed.
  Lemma open_order c img order system op o :
    OpenImage c (image_name img) order system (DiskOperatorFactories iter fuel) = Ok (ONaked op, o) -> opened_order img order o.
  Proof.
    intros H. destruct (naked_opened _ _ _ _ _ _ H) as (Hc & _). rewrite OpenImage_floppy in H by exact Hc.
    unfold openDoOrPo in H. cbv zeta in H. destruct (zlen _ =? 0); [discriminate|].
    destruct (candidate_orders order (to_lower (path_Ext (image_name img)))) as [orders|e|] eqn:E; cbn [rbind] in H; [|discriminate|discriminate].
    apply candidate_orders_iff in E. exists orders. split; [exact E|]. apply try_orders_order in H. exact H.
  Qed.

  (** ** Writing back *)
  Lemma known_raw : exists l, interleave (s2b "raw") l.
  Proof. eexists. constructor. Qed.
  Lemma writeback_run c o d op img : reordered c o (s2b "raw") d -> zlen (op_data op) = 143360 ->
    exists new, reordered new o (s2b "raw") (op_data op) /\
      forall w, run (WriteBack img (ONaked op) o true) w = run (WriteOutput img new true) w.
  Proof.
    intros (_ & _ & lf & lt & If & _) Hd.
    destruct (reordered_ex (op_data op) (s2b "raw") o Hd known_raw (ex_intro _ lf If)) as [new Hn].
    exists new. split; [apply reordered_back; exact Hn|]. intros w. unfold WriteBack. rewrite run_pbind.
    assert (E : WriteBackBytes (Op_GetBytes (ONaked op)) (Op_DiskOrder (ONaked op)) o = Ok new).
    { unfold WriteBackBytes. cbn [Op_GetBytes Op_DiskOrder]. unfold FloppyDiskBytes. rewrite Hd. cbn [Z.eqb Pos.eqb negb].
      apply reorder2_iff. exact Hn. }
    rewrite E. reflexivity.
  Qed.

  Lemma new_image new o op : op_ok op -> reordered new o (s2b "raw") (op_data op) ->
    naked_image new o (op_data op) /\ op_SM op = stored_map (op_data op).
  Proof.
    intros [Hfl _] Hr. pose proof (fl_map _ _ Hfl) as Em. split; [|symmetry; exact Em].
    split; [exact Hr|]. rewrite Em. exact Hfl.
  Qed.
End Naked.

(** ** Names *)
Lemma target_files t n nf mf sy : FilesForCompoundName t n = Ok (nf, mf, sy) ->
  (nf = 0 /\ mf = 0 /\ sy = n /\ no_colon n /\ forall f, ~ resolves t n f) \/
  (nf <> 0 /\ target t n nf /\
     ((sy = [] /\ mf = 0 /\ numeric n nf) \/
      (sy = n /\ mf = nf /\ no_colon n /\ (forall g, ~ numeric n g) /\ symbol_file t n nf) \/
      exists p, n = p ++ 58 :: sy /\ no_colon p /\ no_colon sy /\ numeric p nf /\ (forall g, ~ numeric sy g) /\
        ((mf <> 0 /\ symbol_file t sy mf) \/ (mf = 0 /\ forall g, ~ symbol_file t sy g)))).
Proof.
  intros H. destruct (colon_cases n) as [Hn|(a & b & -> & Ha)].
  - destruct (C40_lemma t n [] Hn ltac:(intros [])) as (H1 & H2 & H3 & _).
    destruct (FileForName_spec t n) as [(f & _ & Hr & Hf)|[_ Hnr]].
    + right. destruct Hr as [Hr|[Hnn Hr]].
      * rewrite (H1 f Hr) in H. injection H as <- <- <-. unfold legal in Hf. split; [lia|]. split; [apply tg_plain; [exact Hn|left; exact Hr]|].
        left. split; [reflexivity|]. split; [reflexivity|exact Hr].
      * rewrite (H2 f Hnn Hr) in H. injection H as <- <- <-. unfold legal in Hf. split; [lia|].
        split; [apply tg_plain; [exact Hn|right; split; assumption]|].
        right; left. split; [reflexivity|]. split; [reflexivity|]. split; [exact Hn|]. split; [exact Hnn|exact Hr].
    + left. rewrite (H3 Hnr) in H. injection H as <- <- <-. split; [reflexivity|]. split; [reflexivity|]. split; [reflexivity|].
      split; [exact Hn|exact Hnr].
  - destruct (colon_cases b) as [Hb|(b1 & b2 & -> & Hb1)].
    2:{ destruct (C40_lemma t a a Ha Ha) as (_ & _ & _ & _ & _ & H6). destruct (H6 a b1 b2) as [e E]. congruence. }
    destruct (C40_lemma t a b Ha Hb) as (_ & _ & _ & H4 & H5 & _).
    destruct (parseAddress_cases a) as [(f & Hf & _)|[Hnf _]].
    2:{ destruct H5 as [e E]; [left; exact Hnf|congruence]. }
    destruct (parseAddress_cases b) as [(g & Hg & _)|[Hng _]].
    { destruct H5 as [e E]; [right; exists g; exact Hg|congruence]. }
    right. destruct (H4 f Hf Hng) as [G1 G2].
    assert (Hl : legal f) by apply Hf. unfold legal in Hl.
    destruct (FileForName_spec t b) as [(g & _ & [Hr|[_ Hr]] & Hg)|[_ Hnr]].
    + contradiction (Hng g Hr).
    + rewrite (G1 g Hr) in H. injection H as <- <- <-. split; [lia|]. split; [apply tg_compound; assumption|].
      right; right. exists a. split; [reflexivity|]. split; [exact Ha|]. split; [exact Hb|]. split; [exact Hf|]. split; [exact Hng|].
      left. unfold legal in Hg. split; [lia|exact Hr].
    + assert (Hns : forall g, ~ symbol_file t b g) by (intros g Hs; apply (Hnr g); right; split; [exact Hng|exact Hs]).
      rewrite (G2 Hns) in H. injection H as <- <- <-. split; [lia|]. split; [apply tg_compound; assumption|].
      right; right. exists a. split; [reflexivity|]. split; [exact Ha|]. split; [exact Hb|]. split; [exact Hf|]. split; [exact Hng|].
      right. split; [reflexivity|exact Hns].
Qed.

(** ** What a successful PutFile does *)
Lemma put_binary i ow o o' ex : PutFile i ow o = (o', Ok ex) -> d_type (fi_desc_ i) = FiletypeBinary.
Proof.
  destruct (Z.eq_dec (d_type (fi_desc_ i)) FiletypeBinary) as [E|E]; [intros _; exact E|].
  unfold PutFile. replace (negb (d_type (fi_desc_ i) =? FiletypeBinary)) with true by lia. intros H. injection H as _ H. discriminate H.
Qed.
Lemma first_free_num sm nf num : legal num -> num = (if nf =? 0 then FirstFreeFile sm else nf) -> nf = 0 -> owned sm num = [].
Proof.
  intros Hl E Ez. destruct (Z.eqb_spec nf 0) as [_|Hn]; [|contradiction].
  pose proof (FirstFreeFile_spec sm) as Hs. cbv zeta in Hs. rewrite <- E in Hs.
  destruct Hs as [(_ & H & _)|[H _]]; [exact H|]. unfold legal in Hl. lia.
Qed.
Lemma put_effect i ow o o' ex : op_ok o -> fi_data i <> [] -> PutFile i ow o = (o', Ok ex) ->
  op_ok o' /\ d_type (fi_desc_ i) = FiletypeBinary /\
  exists f, legal f /\
    (target (st_of o) (d_name (fi_desc_ i)) f \/
     (no_colon (d_name (fi_desc_ i)) /\ (forall g, ~ resolves (st_of o) (d_name (fi_desc_ i)) g) /\ owned (op_SM o) f = [])) /\
    (owned (op_SM o) f <> [] -> ow = true) /\
    (f <> 3 -> f <> 4 -> content (op_data o') (op_SM o') f = padded (fi_data i)) /\
    (forall g, legal g -> g <> f -> g <> 3 -> g <> 4 ->
       content (op_data o') (op_SM o') g = content (op_data o) (op_SM o) g) /\
    (no_colon (d_name (fi_desc_ i)) -> resolves (st_of o) (d_name (fi_desc_ i)) f -> content (op_data o') (op_SM o') f = padded (fi_data i) /\
       forall g, legal g -> g <> f -> content (op_data o') (op_SM o') g = content (op_data o) (op_SM o) g).
Proof.
  intros Hok Hne HP. destruct (PutFile_inv i ow o o' _ Hok Hne HP) as [Hok' _]. split; [exact Hok'|]. split.
  { eapply put_binary. exact HP. }
  destruct (PutFile_success i ow o o' ex Hok Hne HP) as (nf & mf & sy & num & d1 & sm1 & EF & En & Hl & Hs & Hfl & Hc & Hoth & _ & How & Hcase).
  exists num. split; [exact Hl|].
  apply target_files in EF. split.
  { destruct EF as [(Z1 & _ & _ & Hn & Hnr)|(Z1 & Ht & _)].
    - right. split; [exact Hn|]. split; [exact Hnr|]. exact (first_free_num _ _ _ Hl En Z1).
    - left. replace (nf =? 0) with false in En by lia. subst num. exact Ht. }
  split; [exact How|].
  destruct Hcase as [[Hsy ->]|(Hm & Hsy & t & t1 & d2 & sm2 & Et & Ea & Ew & ->)]; cbn [op_data op_SM].
  - split; [intros _ _; exact Hc|]. split; [intros g Hg Hgf _ _; apply (Hoth g Hgf Hg)|].
    intros _ _. split; [exact Hc|]. intros g Hg Hgf. apply (Hoth g Hgf Hg).
  - assert (Hlt : zlen t1 <= 819).
    { destruct (AddSymbol_changed _ _ _ _ Ea) as (_ & p & n' & (HL & _) & _). rewrite HL.
      rewrite (ok_st _ Hok t Et). lia. }
    destruct (WriteSymbolTable_any t1 d1 sm1 Hfl Hlt) as (d2' & sm2' & r & Ew' & _ & _ & Ho & _).
    rewrite Ew in Ew'. injection Ew' as <- <- <-.
    split; [|split].
    + intros N3 N4. destruct (Ho num N3 N4 Hl) as [_ ->]. exact Hc.
    + intros g Hg Hgf N3 N4. destruct (Ho g N3 N4 Hg) as [_ ->]. apply (Hoth g Hgf Hg).
    + intros Hnum Hres. destruct EF as [(_ & _ & _ & _ & Hnr)|(Z1 & _ & [(E & _)|[(_ & E & _)|(p & E & Hp & Hsc & _)]])].
      * contradiction (Hnr num Hres).
      * contradiction.
      * replace (nf =? 0) with false in En by lia. contradiction Hm. congruence.
      * exfalso. apply Hnum. rewrite E. apply in_or_app. right. left. reflexivity.
Qed.

(** ** The commands *)
Section NakedCommands.
  Context (iter : list (Z * Subdirectory) -> list (Z * Subdirectory)) (fuel : nat).

  Lemma content_file_on o f : op_ok o -> content (op_data o) (op_SM o) f = file_on (op_data o) f.
  Proof. intros [Hfl _]. unfold file_on. rewrite (fl_map _ _ Hfl). reflexivity. Qed.
  Lemma owned_file_on o f : op_ok o -> (owned (op_SM o) f = [] <-> file_on (op_data o) f = []).
  Proof.
    intros Hok. rewrite <- content_file_on by exact Hok. symmetry. apply content_nil_iff. apply (fl_len _ _ (ok_fl _ Hok)).
  Qed.

  Lemma put_dos3 i ow d : exists e, dos3_PutFile i ow d = (d, Err e).
  Proof. eexists. reflexivity. Qed.

  Lemma put_finish c o op op' img w w1 w' i ow ex :
    reordered c o (s2b "raw") (op_data op) -> op_ok op -> fi_data i <> [] ->
    same_files w w1 -> w_stdout w1 = w_stdout w ->
    PutFile i ow op = (op', Ok ex) ->
    run (WriteBack img (ONaked op') o true) w1 = (w', Ok tt) ->
    exists new, output w w' img new /\ naked_image new o (op_data op').
  Proof.
    intros Hr Hok Hne Hsf Hso HP Hw. destruct (PutFile_inv _ _ _ _ _ Hok Hne HP) as [Hok' _].
    destruct (writeback_run c o (op_data op) op' img Hr (fl_len _ _ (ok_fl _ Hok'))) as (new & Hn & Hrun).
    rewrite Hrun in Hw. exists new. split; [apply (output_files w w1); [exact Hsf|exact Hso|apply run_output in Hw; exact Hw]|].
    apply (new_image new o op' Hok' Hn).
  Qed.

  Lemma put_parts order system ft ow addr img tgt src w w' s :
    run (PutCmd_Run iter fuel order system ft ow addr img tgt src) w = (w', Ok tt) ->
    input w src s -> s <> [] ->
    exists c o op op2 ftv ex new,
      input w img c /\ OpenImage c (image_name img) order system (DiskOperatorFactories iter fuel) = Ok (ONaked op, o) /\
      FiletypeForName ft = Ok ftv /\
      PutFile (FI (Desc tgt [] 0 0 (zlen s) false ftv) s addr) ow op = (op2, Ok ex) /\
      output w w' img new /\ naked_image new o (op_data op2).
  Proof.
    intros H Hs Hne. unfold PutCmd_Run in H.
    destruct (beq img dash && beq src dash) eqn:Ed; [discriminate|].
    rewrite run_pbind in H. destruct (run (OpenFilename iter fuel img order system) w) as [w1 [[op o]|e|]] eqn:Eo; [|discriminate|discriminate].
    destruct (open_run _ _ _ _ _ _ _ _ _ Eo) as (c & Hc & Hopen & Hsf & Hso & _ & _ & Hw1).
    rewrite run_pbind in H. destruct (run (FileContentsOrStdIn src) w1) as [w2 [s'|e|]] eqn:Es; [|discriminate|discriminate].
    destruct (run_contents _ _ _ _ Es) as (Hs' & Hsf2 & Hso2 & _).
    assert (s' = s) as ->.
    { destruct Hs as [[Hd Hs]|[Hd [wr Hs]]]; destruct Hs' as [[Hd' Hs']|[Hd' [wr' Hs']]]; try contradiction.
      - assert (img <> s2b "-") as Hi.
        { intros ->. subst src. discriminate Ed. }
        rewrite (Hw1 Hi) in Hs'. congruence.
      - rewrite Hsf in Hs'. congruence. }
    rewrite run_pbind in H. unfold plift in H at 1. cbn [run] in H.
    destruct (FiletypeForName ft) as [ftv|e|] eqn:Ef; [|discriminate|discriminate].
    remember (FI (Desc tgt [] 0 0 (zlen s) false ftv) s addr) as i eqn:Ei.
    destruct (Op_PutFile op i ow) as [op' r] eqn:EP. rewrite run_pbind in H. unfold plift in H. cbn [run] in H.
    destruct r as [ex|e|]; [|discriminate|discriminate].
    destruct op as [d0|op|d0]; cbn [Op_PutFile] in EP.
    { destruct (put_dos3 i ow d0) as [e E]. rewrite E in EP. cbn [lift_op] in EP. injection EP as _ EP. discriminate EP. }
    2:{ cbn in EP. injection EP as _ EP. discriminate EP. }
    destruct (PutFile i ow op) as [op2 r2] eqn:EP2. cbn [lift_op] in EP. injection EP as <- ->.
    destruct (naked_opened iter fuel _ _ _ _ _ _ Hopen) as (_ & Hr & En & Hd & Hre & Hni & Em & Hnm).
    pose proof (reached_ok _ Hre) as Hok.
    assert (Hdi : fi_data i = s) by (rewrite Ei; reflexivity).
    assert (Hni2 : d_name (fi_desc_ i) = tgt) by (rewrite Ei; reflexivity).
    assert (Hti : d_type (fi_desc_ i) = ftv) by (rewrite Ei; reflexivity).
    assert (Hsf' : same_files w w2) by (intros n; rewrite Hsf2; apply Hsf).
    destruct (put_finish c o op op2 img w w2 w' i ow ex Hr Hok ltac:(rewrite Hdi; exact Hne) Hsf' ltac:(congruence) EP2 H) as (new & Hout & Hnew).
    exists c, o, op, op2, ftv, ex, new. split; [exact Hc|]. split; [exact Hopen|]. split; [reflexivity|].
    split; [rewrite <- Ei; exact EP2|]. split; [exact Hout|exact Hnew].
  Qed.

  Lemma put_run_open order system ft ow addr img tgt src w w' s :
    run (PutCmd_Run iter fuel order system ft ow addr img tgt src) w = (w', Ok tt) ->
    input w src s -> s <> [] ->
    exists c o d t d' new f op,
      OpenImage c (image_name img) order system (DiskOperatorFactories iter fuel) = Ok (ONaked op, o) /\ op_data op = d /\
      input w img c /\ opened_order img order o /\ naked_image c o d /\ names_on d t /\ output w w' img new /\ naked_image new o d' /\
      FiletypeForName ft = Ok FiletypeBinary /\ legal f /\
      (target t tgt f \/ (no_colon tgt /\ (forall g, ~ resolves t tgt g) /\ file_on d f = [])) /\
      (file_on d f <> [] -> ow = true) /\
      (f <> 3 -> f <> 4 -> file_on d' f = padded s) /\
      (forall g, legal g -> g <> f -> g <> 3 -> g <> 4 -> file_on d' g = file_on d g) /\
      (no_colon tgt -> resolves t tgt f -> file_on d' f = padded s /\ forall g, legal g -> g <> f -> file_on d' g = file_on d g).
  Proof.
    intros H Hs Hne.
    destruct (put_parts _ _ _ _ _ _ _ _ _ _ _ H Hs Hne) as (c & o & op & op2 & ftv & ex & new & Hc & Hopen & Ef & EP2 & Hout & Hnew).
    remember (FI (Desc tgt [] 0 0 (zlen s) false ftv) s addr) as i eqn:Ei.
    destruct (naked_opened iter fuel _ _ _ _ _ _ Hopen) as (_ & Hr & En & Hd & Hre & Hni & Em & Hnm).
    pose proof (reached_ok _ Hre) as Hok.
    assert (Hdi : fi_data i = s) by (rewrite Ei; reflexivity).
    assert (Hni2 : d_name (fi_desc_ i) = tgt) by (rewrite Ei; reflexivity).
    assert (Hti : d_type (fi_desc_ i) = ftv) by (rewrite Ei; reflexivity).
    destruct (put_effect i ow op op2 ex Hok ltac:(rewrite Hdi; exact Hne) EP2) as (Hok2 & Hty & f & Hl & Ht & How & Hf1 & Hf2 & Hf3).
    rewrite Hni2 in Ht, Hf3. rewrite Hdi in Hf1, Hf3. rewrite Hti in Hty.
    exists c, o, (op_data op), (st_of op), (op_data op2), new, f, op.
    split; [exact Hopen|]. split; [reflexivity|]. split; [exact Hc|]. split; [exact (open_order iter fuel _ _ _ _ _ _ Hopen)|]. split; [exact Hni|]. split; [exact Hnm|]. split; [exact Hout|]. split; [exact Hnew|].
    split; [rewrite Ef, Hty; reflexivity|]. split; [exact Hl|].
    split. { destruct Ht as [Ht|(H1 & H2 & H3)]; [left; exact Ht|]. right. split; [exact H1|]. split; [exact H2|]. apply owned_file_on; assumption. }
    split. { intros Hx. apply How. intros E. apply Hx. apply owned_file_on; assumption. }
    split. { intros N3 N4. rewrite <- (content_file_on op2) by exact Hok2. apply (Hf1 N3 N4). }
    split. { intros g Hg Hgf N3 N4. rewrite <- (content_file_on op2), <- (content_file_on op) by assumption. apply Hf2; assumption. }
    intros Hnc Hnum. destruct (Hf3 Hnc Hnum) as [G1 G2]. split; [rewrite <- (content_file_on op2) by exact Hok2; exact G1|].
    intros g Hg Hgf. rewrite <- (content_file_on op2), <- (content_file_on op) by assumption. apply G2; assumption.
  Qed.

  Lemma put_run order system ft ow addr img tgt src w w' s :
    run (PutCmd_Run iter fuel order system ft ow addr img tgt src) w = (w', Ok tt) ->
    input w src s -> s <> [] ->
    exists c o d t d' new f,
      input w img c /\ opened_order img order o /\ naked_image c o d /\ names_on d t /\ output w w' img new /\ naked_image new o d' /\
      FiletypeForName ft = Ok FiletypeBinary /\ legal f /\
      (target t tgt f \/ (no_colon tgt /\ (forall g, ~ resolves t tgt g) /\ file_on d f = [])) /\
      (file_on d f <> [] -> ow = true) /\
      (f <> 3 -> f <> 4 -> file_on d' f = padded s) /\
      (forall g, legal g -> g <> f -> g <> 3 -> g <> 4 -> file_on d' g = file_on d g) /\
      (no_colon tgt -> resolves t tgt f -> file_on d' f = padded s /\ forall g, legal g -> g <> f -> file_on d' g = file_on d g).
  Proof.
    intros H Hs Hne. destruct (put_run_open _ _ _ _ _ _ _ _ _ _ _ H Hs Hne) as (c & o & d & t & d' & new & f & _ & _ & _ & Hx).
    exists c, o, d, t, d', new, f. exact Hx.
  Qed.

  Lemma mkhello_run_open order img name address start0 w w' :
    run (MkHelloCmd_Run iter fuel order img name address start0) w = (w', Ok tt) ->
    0 <= address < 65536 -> 0 <= start0 < 65536 ->
    let start := if start0 =? 0xFFFF then address else start0 in
    address mod 256 = 0 /\ address <= start /\
    exists c o d t d' new f op,
      OpenImage c (image_name img) order (s2b "auto") (DiskOperatorFactories iter fuel) = Ok (ONaked op, o) /\ op_data op = d /\
      input w img c /\ opened_order img order o /\ naked_image c o d /\ names_on d t /\ target t name f /\ legal f /\
      output w w' img new /\ naked_image new o d' /\
      file_on d' 1 = [0x20; 0x40; 0x03; 0x6D; 0x01; 0xDC; 0x2C; f; 0xDF; 0x2C; 0; address / 256; 0xD8; 0x4C;
                      start mod 256; start / 256] ++ zeros 240 /\
      (forall g, legal g -> g <> 1 -> g <> 3 -> g <> 4 -> file_on d' g = file_on d g).
  Proof.
    intros H Ha Hs. unfold MkHelloCmd_Run in H. cbv zeta in *. remember (if start0 =? 0xFFFF then address else start0) as start eqn:Est.
    assert (Hst : 0 <= start < 65536) by (destruct (start0 =? 65535); lia).
    destruct (Z.eqb_spec (address mod 256) 0) as [Ham|Ham]; cbn [negb] in H; [|discriminate].
    destruct (Z.ltb_spec start address) as [Hlt|Hlt]; [discriminate|].
    split; [exact Ham|]. split; [exact Hlt|].
    rewrite run_pbind in H. destruct (run (OpenFilename iter fuel img order (s2b "auto")) w) as [w1 [[op o]|e|]] eqn:Eo; [|discriminate|discriminate].
    destruct (open_run _ _ _ _ _ _ _ _ _ Eo) as (c & Hc & Hopen & Hsf & Hso & _ & _ & Hw1).
    destruct op as [d0|op|d0]; [discriminate| |discriminate].
    rewrite run_pbind in H. unfold plift in H at 1. cbn [run] in H.
    destruct (FilesForCompoundName (st_of op) name) as [[[nf mf] sy]|e|] eqn:EF; [|discriminate|discriminate].
    destruct ((nf =? 0) && (mf =? 0)) eqn:E0; [discriminate|].
    remember (if nf =? 0 then mf else nf) as f eqn:Ef.
    remember (hello_program f address start) as prog eqn:Epr.
    remember (FI (Desc (s2b "DF01:" ++ helloName) [] 0 0 (zlen prog) false FiletypeBinary) prog 0) as i eqn:Ei.
    destruct (Op_PutFile (ONaked op) i true) as [op' r] eqn:EP. rewrite run_pbind in H. unfold plift in H. cbn [run] in H.
    destruct r as [ex|e|]; [|discriminate|discriminate].
    cbn [Op_PutFile] in EP. destruct (PutFile i true op) as [op2 r2] eqn:EP2. cbn [lift_op] in EP. injection EP as <- ->.
    destruct (naked_opened iter fuel _ _ _ _ _ _ Hopen) as (_ & Hr & En & Hd & Hre & Hni & Em & Hnm).
    pose proof (reached_ok _ Hre) as Hok.
    assert (Hdi : fi_data i = prog) by (rewrite Ei; reflexivity).
    assert (Hne : fi_data i <> []) by (rewrite Hdi, Epr; discriminate).
    assert (Hnm2 : d_name (fi_desc_ i) = s2b "DF01:" ++ helloName) by (rewrite Ei; reflexivity).
    destruct (put_finish c o op op2 img w w1 w' i true ex Hr Hok Hne Hsf Hso EP2 H) as (new & Hout & Hnew).
    destruct (put_effect i true op op2 ex Hok Hne EP2) as (Hok2 & _ & f1 & Hl & Ht & _ & Hf1 & Hf2 & _).
    (* the file written is number 1 *)
    assert (f1 = 1) as ->.
    { rewrite Hnm2 in Ht. destruct Ht as [Ht|(Hcol & _)].
      - inversion Ht as [n g Hcol Hres E1 E2|p q g Hp Hq Hn Hnn E1 E2].
        + exfalso. apply Hcol. do 4 right; left. reflexivity.
        + subst g. change (s2b "DF01:" ++ helloName) with (s2b "DF01" ++ 58 :: s2b "FHELLO") in E1.
          assert (E3 : split_colon (p ++ 58 :: q) = split_colon (s2b "DF01" ++ 58 :: s2b "FHELLO")) by (rewrite E1; reflexivity).
          rewrite (split_app p q Hp), (split_none q Hq) in E3. change (split_colon (s2b "DF01" ++ 58 :: s2b "FHELLO")) with [s2b "DF01"; s2b "FHELLO"] in E3.
          injection E3 as Ep Eq. subst p.
          destruct (parseAddress_cases (s2b "DF01")) as [(g & Hg & Eg)|[Hno _]]; [|contradiction (Hno _ Hn)].
          change (parseAddressFilename (s2b "DF01")) with 1 in Eg. subst g. apply (numeric_det _ _ _ Hn Hg).
      - exfalso. apply Hcol. do 4 right; left. reflexivity. }
    apply target_files in EF.
    assert (Hf : target (st_of op) name f /\ legal f).
    { destruct EF as [(-> & -> & _)|(Hnz & Ht2 & Hx)]; [discriminate E0|].
      replace (nf =? 0) with false in Ef by lia. subst f. split; [exact Ht2|].
      destruct Hx as [(_ & _ & Hx)|[(_ & _ & _ & _ & Hx)|(p & _ & _ & _ & Hx & _)]]; apply Hx. }
    destruct Hf as [Htf Hlf].
    exists c, o, (op_data op), (st_of op), (op_data op2), new, f, op.
    split; [exact Hopen|]. split; [reflexivity|]. split; [exact Hc|]. split; [exact (open_order iter fuel _ _ _ _ _ _ Hopen)|]. split; [exact Hni|]. split; [exact Hnm|]. split; [exact Htf|]. split; [exact Hlf|].
    split; [exact Hout|]. split; [exact Hnew|].
    split.
    { rewrite <- (content_file_on op2) by exact Hok2. rewrite Hf1 by lia. rewrite Hdi, Epr. unfold padded, hello_program.
      change (nsec _) with 1. change (256 * 1 - zlen _) with 240. unfold u8. cbv beta.
      replace (address / 256 mod 256) with (address / 256) by lia. replace (start / 256 mod 256) with (start / 256) by lia. reflexivity. }
    intros g Hg Hgf N3 N4. rewrite <- (content_file_on op2), <- (content_file_on op) by assumption. apply Hf2; assumption.
  Qed.
  Lemma mkhello_run order img name address start0 w w' :
    run (MkHelloCmd_Run iter fuel order img name address start0) w = (w', Ok tt) ->
    0 <= address < 65536 -> 0 <= start0 < 65536 ->
    let start := if start0 =? 0xFFFF then address else start0 in
    address mod 256 = 0 /\ address <= start /\
    exists c o d t d' new f,
      input w img c /\ opened_order img order o /\ naked_image c o d /\ names_on d t /\ target t name f /\ legal f /\
      output w w' img new /\ naked_image new o d' /\
      file_on d' 1 = [0x20; 0x40; 0x03; 0x6D; 0x01; 0xDC; 0x2C; f; 0xDF; 0x2C; 0; address / 256; 0xD8; 0x4C;
                      start mod 256; start / 256] ++ zeros 240 /\
      (forall g, legal g -> g <> 1 -> g <> 3 -> g <> 4 -> file_on d' g = file_on d g).
  Proof.
    intros H Ha Hs start. destruct (mkhello_run_open _ _ _ _ _ _ _ H Ha Hs) as (H1 & H2 & c & o & d & t & d' & new & f & _ & _ & _ & Hx).
    split; [exact H1|]. split; [exact H2|]. exists c, o, d, t, d', new, f. exact Hx.
  Qed.

  (** ** rm *)
  Lemma rm_run_open order system missingOk img name w w' :
    run (DeleteCmd_Run iter fuel order system missingOk img name) w = (w', Ok tt) ->
    exists c o d t d' new f op,
      OpenImage c (image_name img) order system (DiskOperatorFactories iter fuel) = Ok (ONaked op, o) /\ op_data op = d /\
      input w img c /\ opened_order img order o /\ naked_image c o d /\ names_on d t /\ output w w' img new /\ naked_image new o d' /\
      legal f /\ resolves t name f /\ (missingOk = false -> file_on d f <> []) /\
      (f <> 3 -> f <> 4 -> file_on d' f = []) /\
      (forall g, legal g -> g <> f -> g <> 3 -> g <> 4 -> file_on d' g = file_on d g).
  Proof.
    intros H. unfold DeleteCmd_Run in H.
    rewrite run_pbind in H. destruct (run (OpenFilename iter fuel img order system) w) as [w1 [[op o]|e|]] eqn:Eo; [|discriminate|discriminate].
    destruct (open_run _ _ _ _ _ _ _ _ _ Eo) as (c & Hc & Hopen & Hsf & Hso & _ & _ & Hw1).
    destruct (Op_Delete op name) as [op' r] eqn:EP. rewrite run_pbind in H. unfold plift in H. cbn [run] in H.
    destruct r as [ex|e|]; [|discriminate|discriminate].
    destruct op as [d0|op|d0]; cbn [Op_Delete] in EP.
    { cbn in EP. injection EP as _ EP. discriminate EP. }
    2:{ cbn in EP. injection EP as _ EP. discriminate EP. }
    destruct (Delete name op) as [op2 r2] eqn:EP2. cbn [lift_op] in EP. injection EP as <- ->.
    destruct (naked_opened iter fuel _ _ _ _ _ _ Hopen) as (_ & Hr & En & Hd & Hre & Hni & Em & Hnm).
    pose proof (reached_ok _ Hre) as Hok.
    destruct (negb ex && negb missingOk) eqn:Ee; [discriminate|].
    destruct (Delete_inv _ _ _ _ Hok EP2) as [Hok2 _].
    destruct (writeback_run c o (op_data op) op2 img Hr (fl_len _ _ (ok_fl _ Hok2))) as (new & Hn & Hrun).
    rewrite Hrun in H. apply run_output in H. apply (output_files w w1 w' img new Hsf Hso) in H.
    destruct (new_image new o op2 Hok2 Hn) as [Hnew _].
    destruct (Delete_success name op op2 ex Hok EP2) as (f & Hl & Hres & Hex & Hoth & Hgone & _).
    exists c, o, (op_data op), (st_of op), (op_data op2), new, f, op.
    split; [exact Hopen|]. split; [reflexivity|]. split; [exact Hc|]. split; [exact (open_order iter fuel _ _ _ _ _ _ Hopen)|]. split; [exact Hni|]. split; [exact Hnm|]. split; [exact H|]. split; [exact Hnew|].
    split; [exact Hl|]. split; [exact Hres|].
    split. { intros ->. rewrite content_file_on in Hex by exact Hok. intros E. rewrite E in Hex. rewrite Hex in Ee. discriminate Ee. }
    split. { intros N3 N4. apply owned_file_on; [exact Hok2|]. apply (Hgone N3 N4). }
    intros g Hg Hgf N3 N4. rewrite <- (content_file_on op2), <- (content_file_on op) by assumption. apply Hoth; assumption.
  Qed.
  Lemma rm_run order system missingOk img name w w' :
    run (DeleteCmd_Run iter fuel order system missingOk img name) w = (w', Ok tt) ->
    exists c o d t d' new f,
      input w img c /\ opened_order img order o /\ naked_image c o d /\ names_on d t /\ output w w' img new /\ naked_image new o d' /\
      legal f /\ resolves t name f /\ (missingOk = false -> file_on d f <> []) /\
      (f <> 3 -> f <> 4 -> file_on d' f = []) /\
      (forall g, legal g -> g <> f -> g <> 3 -> g <> 4 -> file_on d' g = file_on d g).
  Proof.
    intros H. destruct (rm_run_open _ _ _ _ _ _ _ H) as (c & o & d & t & d' & new & f & _ & _ & _ & Hx).
    exists c, o, d, t, d', new, f. exact Hx.
  Qed.

  Lemma rm_unknown order system missingOk img name w c op o :
    input w img c -> OpenImage c (image_name img) order system (DiskOperatorFactories iter fuel) = Ok (ONaked op, o) ->
    (forall f, ~ resolves (st_of op) name f) ->
    exists w', run (DeleteCmd_Run iter fuel order system missingOk img name) w = (w', Err EFileNotFound) /\ same_files w w'.
  Proof.
    intros Hi Ho Hn. destruct (open_run_ok _ _ _ _ _ _ _ _ _ Hi Ho) as (w1 & Er & Hsf & _).
    exists w1. split; [|exact Hsf]. unfold DeleteCmd_Run. rewrite run_pbind, Er. cbn [Op_Delete].
    assert (E : Delete name op = (op, Err EFileNotFound)).
    { unfold Delete. destruct (FileForName_spec (st_of op) name) as [(f & _ & Hr & _)|[E _]]; [contradiction (Hn f Hr)|].
      rewrite E. reflexivity. }
    rewrite E. reflexivity.
  Qed.

  Lemma SMDelete_absent sm f : zlen sm = 560 -> owned sm f = [] -> SMDelete sm f = sm.
  Proof.
    intros Hl Ho. apply (znth_ext 0); [apply zlen_SMDelete|]. intros k Hk. rewrite zlen_SMDelete in Hk.
    rewrite znth_SMDelete by lia. destruct (Z.eqb_spec (znth 0 sm k) f) as [E|E]; [|reflexivity].
    assert (In k (owned sm f)) as Hin by (apply In_owned; split; [lia|exact E]). rewrite Ho in Hin. destruct Hin.
  Qed.
  Lemma Delete_absent op n f : op_ok op -> numeric n f -> owned (op_SM op) f = [] ->
    (forall j, 0 <= j < zlen (st_of op) -> equal_fold n (nm (st_of op) j) = false) ->
    Delete n op = (op, Ok false).
  Proof.
    intros Hok Hn Ho Hs. destruct Hok as [Hfl Hst]. unfold Delete.
    assert (FileForName (st_of op) n = Ok f) as -> by (apply FileForName_resolves; left; exact Hn).
    cbv zeta. rewrite SectorsForFile_owned, Ho.
    rewrite (SMDelete_absent _ _ (v_len _ (fl_ver _ _ Hfl)) Ho).
    assert (Ep : Persist (op_SM op) (op_data op) = (op_data op, Ok tt)).
    { pose proof (v_len _ (fl_ver _ _ Hfl)) as HL. pose proof (fl_len _ _ Hfl) as HD.
      rewrite Persist_ok by (rewrite ?HL, ?HD; lia). f_equal. rewrite <- (fl_map _ _ Hfl). unfold stored_map.
      apply upd_sub_id; lia. }
    rewrite Ep. destruct op as [d sm [t|]]; cbn [op_ST op_data op_SM st_of] in *; [|reflexivity].
    assert (DeleteSymbol t n = (t, false)) as ->; [|reflexivity].
    unfold DeleteSymbol. pose proof (find_name_spec t n 0) as H. destruct (find_name t n 0) as [j|]; [|reflexivity].
    rewrite Z.sub_0_r in H. destruct H as (H1 & H2 & _). rewrite Hs in H2 by lia. discriminate H2.
  Qed.

  Lemma rm_absent order system img name w c op o f :
    input w img c -> OpenImage c (image_name img) order system (DiskOperatorFactories iter fuel) = Ok (ONaked op, o) ->
    numeric name f -> file_on (op_data op) f = [] ->
    (forall j, 0 <= j < zlen (st_of op) -> equal_fold name (nm (st_of op) j) = false) ->
    (exists w', run (DeleteCmd_Run iter fuel order system false img name) w =
       (w', Err (EOther "file not found (use -f to prevent this being an error)")) /\ same_files w w') /\
    (forall w' r, run (DeleteCmd_Run iter fuel order system true img name) w = (w', r) ->
       (r = Ok tt -> output w w' img c) /\
       (w_room w = None -> w_outroom w = None -> can_output w img true -> r = Ok tt)).
  Proof.
    intros Hi Ho Hn Hf Hs. destruct (open_run_ok _ _ _ _ _ _ _ _ _ Hi Ho) as (w1 & Er & Hsf & Hso & Hrm & Hor & _).
    destruct (naked_opened iter fuel _ _ _ _ _ _ Ho) as (_ & Hr & En & Hd & Hre & Hni & Em & Hnm).
    pose proof (reached_ok _ Hre) as Hok.
    pose proof (Delete_absent op name f Hok Hn (proj2 (owned_file_on op f Hok) Hf) Hs) as Ed.
    split.
    - exists w1. split; [|exact Hsf]. unfold DeleteCmd_Run. rewrite run_pbind, Er. cbn [Op_Delete]. rewrite Ed. reflexivity.
    - intros w' r H. unfold DeleteCmd_Run in H. rewrite run_pbind, Er in H. cbn [Op_Delete] in H. rewrite Ed in H.
      cbn [lift_op] in H. rewrite run_pbind in H. unfold plift in H. cbn [run negb andb] in H.
      destruct (writeback_run c o (op_data op) op img Hr Hd) as (new & Hnw & Hrun).
      assert (new = c) as -> by (apply (reordered_fun (op_data op) (s2b "raw") o); apply reordered_back; assumption).
      rewrite Hrun in H. split.
      + intros ->. apply (output_files w w1 w' img c Hsf Hso). apply run_output in H. exact H.
      + intros H1 H2 H3. destruct (run_output_ok w1 img c true) as [w2 E2]; [congruence|congruence| |congruence].
        destruct H3 as [H3|(H3 & H4 & H5)]; [left; exact H3|]. right. split; [exact H3|]. split; [|left; reflexivity].
        unfold writable in *. rewrite Hsf. exact H4.
  Qed.
End NakedCommands.
