(** PrintProofs.v -- what ls, dump, put, rm and mkhello do with images of each system. *)
From Coq Require Import ZifyBool ZifyNat.
From Verif Require Import GoBase GoLemmas TypesModel DiskModel DiskSpec DiskProofs DiskOpenProofs.
From Verif Require Import SupermonModel SupermonSpec SupermonTableSpec SupermonStoreSpec SupermonProofs SupermonOpProofs SupermonNameProofs SupermonFinalProofs SupermonNamedProofs SupermonStmtProofs.
From Verif Require Dos3Model Dos3Spec Dos3Proofs Dos3StmtProofs.
From Verif Require ProdosSpec ProdosProofs ProdosStmtProofs ProdosTwinProofs.
From Verif Require Import ProdosModel CmdModel CmdSpec CmdProofs CmdStmtProofs NakedCmdSpec NakedCmdProofs NakedOpenProofs NakedExProofs DetectSpec DetectProofs.
Ltac Zify.zify_post_hook ::= Z.div_mod_to_equations.
Local Opaque zrange zeros sub.

Lemma op_for_name sys d op : zlen d = 143360 \/ sys <> s2b "nakedos" -> op_for sys d op -> Op_Name op = sys /\ Op_GetBytes op = d.
Proof.
  intros Hz HO. inversion HO as [|? op0 H|]; subst; [split; reflexivity| |split; reflexivity]. split; [reflexivity|].
  destruct Hz as [Hz|Hz]; [|contradiction (Hz eq_refl)].
  destruct (NewOperator_ok _ _ Hz H) as (_ & E & _). exact E.
Qed.
Lemma seen_len img order c sys d o : seen_as img order c sys d o -> zlen d = 143360 \/ sys <> s2b "nakedos".
Proof.
  intros [pre o' rest sys' d' Hc B Hca Hpre Hra|]; [|right; discriminate].
  destruct Hra as [? R _|? ? _ _ R _|? ? ? _ _ _ _ R _]; left; apply R.
Qed.

Definition ls_name (short : bool) (fd : Descriptor) : bytes := if negb short && negb (beq (d_fullname fd) []) then d_fullname fd else d_name fd.
Lemma ls_lines_run short fds w : w_outroom w = None -> exists text, all_lines (map (ls_name short) fds) text /\ prints (ls_lines short fds) w text.
Proof.
  revert w. induction fds as [|fd fds IH]; intros w Hw.
  - exists []. split; [constructor|]. exists w. split; [reflexivity|]. split; [intros n; reflexivity|]. rewrite app_nil_r. reflexivity.
  - destruct (IH (add_out w (ls_line short fd)) Hw) as (text & Hl & w' & Hr & Hs & Ho).
    exists (ls_name short fd ++ 10 :: text). split; [constructor; exact Hl|].
    exists w'. split; [|split].
    + cbn [ls_lines run]. unfold sys_stdout. rewrite Hw. cbn [fits]. exact Hr.
    + intros n. rewrite (Hs n). reflexivity.
    + rewrite Ho. cbn [add_out w_stdout]. unfold ls_line, ls_name. rewrite <- !app_assoc. reflexivity.
Qed.

Section Print.
  Context (iter : list (Z * Subdirectory) -> list (Z * Subdirectory)).
  Notation facs := (DiskOperatorFactories iter).

  Lemma ls_prints fuel order system short img dir w c op o fds : input w img c -> w_outroom w = None ->
    OpenImage c (image_name img) order system (facs fuel) = Ok (op, o) ->
    (dir = [] \/ Op_HasSubdirs op = true) -> Op_Catalog iter fuel op dir = Ok fds ->
    exists text, all_lines (map (ls_name short) fds) text /\ prints (LsCmd_Run iter fuel order system short img dir) w text.
  Proof.
    intros Hi Hw Ho Hd Hc. destruct (open_run_ok iter fuel _ _ _ _ _ _ _ Hi Ho) as (w1 & Er & Hsf & Hso & _ & Hor & _).
    destruct (ls_lines_run short fds w1 ltac:(congruence)) as (text & Hl & w' & Hr & Hs & Hout).
    exists text. split; [exact Hl|]. exists w'. split; [|split].
    - unfold LsCmd_Run. rewrite run_pbind, Er.
      assert (negb (beq dir []) && negb (Op_HasSubdirs op) = false) as ->.
      { destruct Hd as [->| ->]; [reflexivity|]. destruct (beq dir []); reflexivity. }
      rewrite run_pbind. unfold plift. cbn [run]. rewrite Hc. exact Hr.
    - intros n. rewrite (Hs n). apply Hsf.
    - rewrite Hout, Hso. reflexivity.
  Qed.
  Lemma ls_fails fuel order system short img dir w c op o : input w img c ->
    OpenImage c (image_name img) order system (facs fuel) = Ok (op, o) ->
    (dir <> [] /\ Op_HasSubdirs op = false) \/ (Op_HasSubdirs op = true /\ exists e, Op_Catalog iter fuel op dir = Err e) ->
    fails_cleanly (LsCmd_Run iter fuel order system short img dir) w.
  Proof.
    intros Hi Ho H. destruct (open_run_ok iter fuel _ _ _ _ _ _ _ Hi Ho) as (w1 & Er & Hsf & Hso & _ & Hor & _).
    unfold fails_cleanly, LsCmd_Run. rewrite run_pbind, Er. destruct H as [[Hd Hs]|[Hs [e He]]].
    - rewrite Hs. destruct (beq dir []) eqn:E; [apply beq_eq in E; contradiction|]. cbn [negb andb].
      exists w1, (EOther "disks of this type cannot have subdirectories"). split; [reflexivity|]. split; [exact Hsf|exact Hso].
    - rewrite Hs. rewrite andb_false_r. rewrite run_pbind. unfold plift. cbn [run]. rewrite He.
      exists w1, e. split; [reflexivity|]. split; [exact Hsf|exact Hso].
  Qed.

  Lemma eventually_returns {A} (f : nat -> option A) P : Dos3Spec.returns f P -> eventually (fun k => exists r, P r /\ f k = Some r).
  Proof. intros (n & r & HP & H). exists n. intros k Hk. exists r. split; [exact HP|apply H; exact Hk]. Qed.

  (** ** ls *)
  Lemma ls_dos img order system c d o l short w : ProdosSpec.an_order iter -> seen_as img order c (s2b "dos3") d o ->
    (system = s2b "auto" \/ system = s2b "dos3") -> bytes_ok d -> Dos3Spec.catalog d l -> input w img c -> w_outroom w = None ->
    eventually (fun fuel => exists names text,
      Forall2 Dos3Spec.entry_name (filter Dos3Spec.is_live (Dos3Spec.entries d l)) names /\ all_lines names text /\
      prints (LsCmd_Run iter fuel order system short img []) w text).
  Proof.
    intros Hi Hs Hsys Bd C Hin Hw. destruct (Dos3StmtProofs.C16_lemma d l Bd C) as [_ HC].
    eapply eventually_impl; [|exact (eventually_and _ _ (opens iter _ _ _ _ _ _ _ Hi Hs Hsys) (eventually_returns _ _ HC))].
    intros k [(op & Ho & Hop) (r & (descs & -> & HF) & Er)]. cbv beta in *.
    inversion Hop; subst. 
    destruct (ls_prints k order system short img [] w c (ODos3 d) o descs Hin Hw Ho (or_introl eq_refl)) as (text & Hl & Hp).
    { cbn [Op_Catalog]. rewrite Er. reflexivity. }
    exists (map d_name descs), text. split; [|split; [|exact Hp]].
    - clear - HF. induction HF as [|e ds es l0 (n & D) _ IH]; constructor; [|exact IH]. destruct (Dos3Spec.ds_name _ _ _ _ D) as [En ->]. exact En.
    - replace (map d_name descs) with (map (ls_name short) descs); [exact Hl|]. clear - HF.
      induction HF as [|e ds es l0 (n & D) _ IH]; [reflexivity|]. cbn [map]. f_equal; [|exact IH].
      unfold ls_name. rewrite (Dos3Spec.ds_full _ _ _ _ D). rewrite andb_false_r. reflexivity.
  Qed.
  Lemma ls_prodos_gen img order system c d o k0 l dir short w : ProdosSpec.an_order iter -> seen_as img order c (s2b "prodos") d o ->
    (system = s2b "auto" \/ system = s2b "prodos") -> input w img c -> w_outroom w = None ->
    Dos3Spec.returns (fun n => ProdosModel.Catalog iter n d dir) (ProdosSpec.lists d k0 l) ->
    eventually (fun fuel => exists text,
      all_lines (map prodos_name_of (filter ProdosSpec.is_live (ProdosSpec.dir_entries d k0 l))) text /\
      prints (LsCmd_Run iter fuel order system short img dir) w text).
  Proof.
    intros Hi Hs Hsys Hin Hw HC.
    eapply eventually_impl; [|exact (eventually_and _ _ (opens iter _ _ _ _ _ _ _ Hi Hs Hsys) (eventually_returns _ _ HC))].
    intros k [(op & Ho & Hop) (r & (descs & -> & HF) & Er)]. cbv beta in *.
    inversion Hop; subst.
    destruct (ls_prints k order system short img dir w c (OProdos d) o descs Hin Hw Ho (or_intror eq_refl)) as (text & Hl & Hp).
    { cbn [Op_Catalog]. rewrite Er. reflexivity. }
    exists text. split; [|exact Hp].
    replace (map prodos_name_of (filter ProdosSpec.is_live (ProdosSpec.dir_entries d k0 l))) with (map (ls_name short) descs); [exact Hl|]. clear - HF.
    induction HF as [|e ds es l0 D _ IH]; [reflexivity|]. cbn [map]. f_equal; [|exact IH].
    unfold ls_name. rewrite (ProdosSpec.ds_full _ _ D). rewrite andb_false_r. apply (ProdosSpec.ds_name _ _ D).
  Qed.
  Lemma ls_prodos img order system c d o t dir k0 l short w : ProdosSpec.an_order iter -> seen_as img order c (s2b "prodos") d o ->
    (system = s2b "auto" \/ system = s2b "prodos") -> input w img c -> w_outroom w = None ->
    ProdosSpec.well_formed d t -> In (dir, (k0, l)) (ProdosSpec.paths d [] t) ->
    (forall x, In (dir, x) (ProdosSpec.paths d [] t) -> x = (k0, l)) ->
    eventually (fun fuel => exists text,
      all_lines (map prodos_name_of (filter ProdosSpec.is_live (ProdosSpec.dir_entries d k0 l))) text /\
      prints (LsCmd_Run iter fuel order system short img dir) w text).
  Proof.
    intros Hi Hs Hsys Hin Hw W I N. apply (ls_prodos_gen img order system c d o k0 l dir short w); try assumption.
    apply (ProdosTwinProofs.C51_one_lemma d t iter dir k0 l W Hi I N).
  Qed.
  Lemma ls_prodos_several img order system c d o t dir short w : ProdosSpec.an_order iter -> seen_as img order c (s2b "prodos") d o ->
    (system = s2b "auto" \/ system = s2b "prodos") -> input w img c -> w_outroom w = None ->
    ProdosSpec.well_formed d t -> dir <> [] -> In dir (map fst (ProdosSpec.paths d [] t)) ->
    exists k0 l, In (dir, (k0, l)) (ProdosSpec.paths d [] t) /\
    eventually (fun fuel => exists text,
      all_lines (map prodos_name_of (filter ProdosSpec.is_live (ProdosSpec.dir_entries d k0 l))) text /\
      prints (LsCmd_Run iter fuel order system short img dir) w text).
  Proof.
    intros Hi Hs Hsys Hin Hw W Hd I. destruct (ProdosTwinProofs.twin_some d t iter dir W Hi Hd I) as (k0 & l & I' & HR). exists k0, l. split; [exact I'|].
    apply (ls_prodos_gen img order system c d o k0 l dir short w); assumption.
  Qed.
  Lemma ls_prodos_none img order system c d o t dir short w : ProdosSpec.an_order iter -> seen_as img order c (s2b "prodos") d o ->
    (system = s2b "auto" \/ system = s2b "prodos") -> input w img c ->
    ProdosSpec.well_formed d t -> ~ In dir (map fst (ProdosSpec.paths d [] t)) ->
    eventually (fun fuel => fails_cleanly (LsCmd_Run iter fuel order system short img dir) w).
  Proof.
    intros Hi Hs Hsys Hin W N.
    eapply eventually_impl; [|exact (eventually_and _ _ (opens iter _ _ _ _ _ _ _ Hi Hs Hsys) (eventually_returns _ _ (ProdosStmtProofs.C51_missing_lemma d t iter dir W Hi N)))].
    intros k [(op & Ho & Hop) (r & (e & ->) & Er)]. cbv beta in *. inversion Hop; subst.
    apply (ls_fails k order system short img dir w c (OProdos d) o Hin Ho). right. split; [reflexivity|]. exists e. cbn [Op_Catalog]. rewrite Er. reflexivity.
  Qed.
  Lemma ls_naked img order system c d o t (short : bool) w : ProdosSpec.an_order iter -> seen_as img order c (s2b "nakedos") d o ->
    (system = s2b "auto" \/ system = s2b "nakedos") -> names_on d t -> input w img c -> w_outroom w = None ->
    eventually (fun fuel => exists fs text, files_on d fs /\
      all_lines (map (if short then shown t else shown_full t) fs) text /\ prints (LsCmd_Run iter fuel order system short img []) w text).
  Proof.
    intros Hi Hs Hsys (op0 & En0 & Et) Hin Hw. destruct (seen_len _ _ _ _ _ _ Hs) as [Hz|Hz]; [|contradiction (Hz eq_refl)].
    eapply eventually_impl; [|exact (opens iter _ _ _ _ _ _ _ Hi Hs Hsys)].
    intros k (op & Ho & Hop). inversion Hop as [| ? op1 En|]; subst. assert (op1 = op0) as -> by congruence.
    destruct (NewOperator_ok _ _ Hz En) as (Hok & Ed & Em & _).
    destruct (ls_prints k order system short img [] w c (ONaked op0) o _ Hin Hw Ho (or_introl eq_refl) (Catalog_spec op0)) as (text & Hl & Hp).
    eexists. exists text. split; [|split; [|exact Hp]].
    2: { rewrite map_map in Hl. match type of Hl with all_lines (map ?g ?l) _ => assert (map g l = map (if short then shown (st_of op0) else shown_full (st_of op0)) l) as EL; [|rewrite EL in Hl; exact Hl] end.
         apply map_ext. intros f. unfold ls_name. cbn [d_name d_fullname]. destruct short; [reflexivity|]. cbn [negb andb].
         assert (shown_full (st_of op0) f <> []) as Hne by (unfold shown_full, printed; destruct (symbol_for _ _); discriminate).
         destruct (beq (shown_full (st_of op0) f) []) eqn:E; [apply beq_eq in E; contradiction|reflexivity]. }
    rewrite Em. split.
    - intros f. rewrite filter_In, in_map_iff. unfold legal, file_on. rewrite (content_nil_iff d (stored_map d) f Hz). split.
      + intros [(k' & <- & Hk) Hn]. apply In_zrange in Hk. split; [lia|]. intros E. rewrite E in Hn. discriminate Hn.
      + intros [Hf Hn]. split; [exists (f - 1); split; [lia|apply In_zrange; lia]|].
        destruct (Z.eqb_spec (zlen (owned (stored_map d) f)) 0) as [E|E]; [apply zlen_zero_nil in E; contradiction|reflexivity].
    - apply sorted_filter, sorted_files.
  Qed.

  Lemma ls_subdir img order system c sys d o dir short w : ProdosSpec.an_order iter -> seen_as img order c sys d o ->
    sys <> s2b "prodos" -> dir <> [] -> (system = s2b "auto" \/ system = sys) -> input w img c ->
    eventually (fun fuel => fails_cleanly (LsCmd_Run iter fuel order system short img dir) w).
  Proof.
    intros Hi Hs Hn Hd Hsys Hin. eapply eventually_impl; [|exact (opens iter _ _ _ _ _ _ _ Hi Hs Hsys)].
    intros k (op & Ho & Hop). apply (ls_fails k order system short img dir w c op o Hin Ho). left. split; [exact Hd|].
    inversion Hop; subst; [reflexivity|reflexivity|contradiction (Hn eq_refl)].
  Qed.

  (** ** dump *)
  Lemma dump_prints fuel order system img n w c op o i : input w img c -> w_outroom w = None ->
    OpenImage c (image_name img) order system (facs fuel) = Ok (op, o) -> Op_GetFile fuel op n = Ok i ->
    prints (DumpCmd_Run iter fuel order system img n) w (fi_data i).
  Proof.
    intros Hi Hw Ho Hg. destruct (open_run_ok iter fuel _ _ _ _ _ _ _ Hi Ho) as (w1 & Er & Hsf & Hso & _ & Hor & _).
    unfold prints, DumpCmd_Run. rewrite run_pbind, Er. rewrite run_pbind. unfold plift. cbn [run]. rewrite Hg.
    cbn [run]. unfold sys_stdout. rewrite Hor, Hw. cbn [fits]. eexists. split; [reflexivity|].
    split; [intros m; exact (Hsf m)|]. cbn [add_out w_stdout]. rewrite Hso. reflexivity.
  Qed.
  Lemma dump_fails fuel order system img n w c op o e : input w img c ->
    OpenImage c (image_name img) order system (facs fuel) = Ok (op, o) -> Op_GetFile fuel op n = Err e ->
    fails_cleanly (DumpCmd_Run iter fuel order system img n) w.
  Proof.
    intros Hi Ho Hg. destruct (open_run_ok iter fuel _ _ _ _ _ _ _ Hi Ho) as (w1 & Er & Hsf & Hso & _ & Hor & _).
    unfold fails_cleanly, DumpCmd_Run. rewrite run_pbind, Er. rewrite run_pbind. unfold plift. cbn [run]. rewrite Hg.
    exists w1, e. split; [reflexivity|]. split; [exact Hsf|exact Hso].
  Qed.
  Lemma dump_dos img order system c d o l n e ls data start out w : ProdosSpec.an_order iter -> seen_as img order c (s2b "dos3") d o ->
    (system = s2b "auto" \/ system = s2b "dos3") -> bytes_ok d -> Dos3Spec.catalog d l -> input w img c -> w_outroom w = None ->
    Dos3Spec.lookup (Dos3Spec.entries d l) n e -> Dos3Spec.body d (znth 0 e 0, znth 0 e 1) ls data ->
    Dos3Spec.decoded (znth 0 e 2 mod 128) (zlen ls) data start out ->
    eventually (fun fuel => prints (DumpCmd_Run iter fuel order system img n) w out).
  Proof.
    intros Hi Hs Hsys Bd C Hin Hw L HB HD. destruct (Dos3StmtProofs.C19_lemma d l n e Bd C L) as [HG _].
    specialize (HG ls data start out HB HD).
    eapply eventually_impl; [|exact (eventually_and _ _ (opens iter _ _ _ _ _ _ _ Hi Hs Hsys) (eventually_returns _ _ HG))].
    intros k [(op & Ho & Hop) (r & (ds & -> & _) & Er)]. cbv beta in *. inversion Hop; subst.
    apply (dump_prints k order system img n w c (ODos3 d) o (FI ds out start) Hin Hw Ho).
    cbn [Op_GetFile]. rewrite Er. reflexivity.
  Qed.
  Lemma dump_dos_none img order system c d o l n w : ProdosSpec.an_order iter -> seen_as img order c (s2b "dos3") d o ->
    (system = s2b "auto" \/ system = s2b "dos3") -> bytes_ok d -> Dos3Spec.catalog d l -> input w img c ->
    (forall e, In e (Dos3Spec.entries d l) -> Dos3Spec.is_live e = true -> ~ Dos3Spec.entry_name e n) ->
    eventually (fun fuel => fails_cleanly (DumpCmd_Run iter fuel order system img n) w).
  Proof.
    intros Hi Hs Hsys Bd C Hin N. destruct (Dos3StmtProofs.C19_missing_lemma d l n Bd C N) as [n0 HG].
    eapply eventually_impl; [|exact (eventually_and _ _ (opens iter _ _ _ _ _ _ _ Hi Hs Hsys) (ex_intro _ n0 HG))].
    intros k [(op & Ho & Hop) (er & Er)]. cbv beta in *. inversion Hop; subst.
    apply (dump_fails k order system img n w c (ODos3 d) o er Hin Ho). cbn [Op_GetFile]. rewrite Er. reflexivity.
  Qed.
  Lemma dump_nakedos img order system c d o t n f w : ProdosSpec.an_order iter -> seen_as img order c (s2b "nakedos") d o ->
    (system = s2b "auto" \/ system = s2b "nakedos") -> names_on d t -> input w img c ->
    (resolves t n f -> file_on d f <> [] -> w_outroom w = None -> eventually (fun fuel => prints (DumpCmd_Run iter fuel order system img n) w (file_on d f))) /\
    (((forall g, ~ resolves t n g) \/ (resolves t n f /\ file_on d f = [])) -> eventually (fun fuel => fails_cleanly (DumpCmd_Run iter fuel order system img n) w)).
  Proof.
    intros Hi Hs Hsys (op0 & En0 & Et) Hin. destruct (seen_len _ _ _ _ _ _ Hs) as [Hz|Hz]; [|contradiction (Hz eq_refl)].
    destruct (NewOperator_ok _ _ Hz En0) as (Hok & Ed & Em & _).
    assert (Hc : content (op_data op0) (op_SM op0) f = file_on d f) by (rewrite Ed, Em; reflexivity).
    split.
    - intros Hr Hf Hw. eapply eventually_impl; [|exact (opens iter _ _ _ _ _ _ _ Hi Hs Hsys)].
      intros k (op & Ho & Hop). inversion Hop as [| ? op1 En|]; subst. assert (op1 = op0) as -> by congruence.
      destruct (GetFile_content op0 n f Hok Hr) as (i & Eg & Ei); [rewrite Hc; exact Hf|].
      rewrite <- Hc, <- Ei. apply (dump_prints k order system img n w c (ONaked op0) o i Hin Hw Ho Eg).
    - intros H. assert (exists e, GetFile op0 n = Err e) as [e Eg].
      { unfold GetFile. rewrite Et. destruct (FileForName t n) as [g|e|] eqn:EF; cbn [rbind].
        - apply FileForName_resolves in EF. destruct H as [H|[Hr Hf]]; [contradiction (H _ EF)|].
          apply FileForName_resolves in EF. apply FileForName_resolves in Hr. assert (g = f) as -> by congruence.
          rewrite ReadFile_spec by (rewrite Ed; exact Hz). rewrite Hc, Hf. eexists. reflexivity.
        - eexists. reflexivity.
        - exfalso. destruct (FileForName_spec t n) as [(f' & E & _)|[E _]]; congruence. }
      eapply eventually_impl; [|exact (opens iter _ _ _ _ _ _ _ Hi Hs Hsys)].
      intros k (op & Ho & Hop). inversion Hop as [| ? op1 En|]; subst. assert (op1 = op0) as -> by congruence.
      apply (dump_fails k order system img n w c (ONaked op0) o e Hin Ho). exact Eg.
  Qed.
  Lemma dump_prodos img order system c d o n w : ProdosSpec.an_order iter -> seen_as img order c (s2b "prodos") d o ->
    (system = s2b "auto" \/ system = s2b "prodos") -> input w img c ->
    eventually (fun fuel => fails_cleanly (DumpCmd_Run iter fuel order system img n) w).
  Proof.
    intros Hi Hs Hsys Hin. eapply eventually_impl; [|exact (opens iter _ _ _ _ _ _ _ Hi Hs Hsys)].
    intros k (op & Ho & Hop). inversion Hop; subst. eapply (dump_fails k order system img n w c (OProdos d) o _ Hin Ho). reflexivity.
  Qed.

  (** ** Commands that need a NakedOS disk *)
  Lemma contents_run s w w1 r : run (FileContentsOrStdIn s) w = (w1, r) -> same_files w w1 /\ w_stdout w1 = w_stdout w /\ r <> Panic.
  Proof.
    unfold FileContentsOrStdIn. destruct (beq s dash); cbn [run].
    - unfold sys_stdin. destruct (w_stdin w); cbn [run]; intros E; injection E as <- <-; (split; [intros n; reflexivity|]; split; [reflexivity|discriminate]).
    - intros E. injection E as <- <-. split; [intros n; reflexivity|]. split; [reflexivity|]. destruct (w_fs w s) as [| |? [|] ?|]; discriminate.
  Qed.
  Lemma filetype_no_panic s : FiletypeForName s <> Panic.
  Proof. unfold FiletypeForName. induction filetypeInfos as [|i l IH]; [discriminate|]. cbn [FiletypeForName_loop]. destruct (_ || beq (fi_one i) s)%bool; [discriminate|exact IH]. Qed.

  Lemma change_fails img order system c sys d o ft ow addr tgt src force name address start w :
    ProdosSpec.an_order iter -> seen_as img order c sys d o -> sys <> s2b "nakedos" ->
    (system = s2b "auto" \/ system = sys) -> input w img c ->
    eventually (fun fuel =>
      fails_cleanly (DeleteCmd_Run iter fuel order system force img name) w /\
      fails_cleanly (PutCmd_Run iter fuel order system ft ow addr img tgt src) w /\
      fails_cleanly (MkHelloCmd_Run iter fuel order img name address start) w).
  Proof.
    intros Hi Hs Hn Hsys Hin.
    eapply eventually_impl; [|exact (eventually_and _ _ (opens iter _ _ _ _ _ _ _ Hi Hs Hsys) (opens iter _ _ _ _ _ _ _ Hi Hs (or_introl eq_refl)))].
    intros k [(op & Ho & Hop) (op' & Ho' & Hop')]. cbv beta in *.
    destruct (open_run_ok iter k _ _ _ _ _ _ _ Hin Ho) as (w1 & Er & Hsf & Hso & _ & Hor & _).
    destruct (open_run_ok iter k _ _ _ _ _ _ _ Hin Ho') as (w2 & Er' & Hsf' & Hso' & _ & Hor' & _).
    unfold fails_cleanly. split; [|split].
    - unfold DeleteCmd_Run. rewrite run_pbind, Er. inversion Hop; subst; [|contradiction (Hn eq_refl)|];
        cbn [Op_Delete lift_op]; eexists w1, _; (split; [reflexivity|]; split; [exact Hsf|exact Hso]).
    - unfold PutCmd_Run. destruct (beq img dash && beq src dash).
      { eexists w, _. split; [reflexivity|]. split; [intros m; reflexivity|reflexivity]. }
      rewrite run_pbind, Er. rewrite run_pbind. destruct (run (FileContentsOrStdIn src) w1) as [w3 r] eqn:E3.
      destruct (contents_run _ _ _ _ E3) as (Hsf3 & Hso3 & Hp3).
      assert (same_files w w3) as S3 by (intros m; rewrite (Hsf3 m); apply Hsf).
      assert (w_stdout w3 = w_stdout w) as O3 by congruence.
      destruct r as [s|e|]; [|eexists w3, _; split; [reflexivity|]; split; [exact S3|exact O3]|contradiction].
      rewrite run_pbind. unfold plift at 1. cbn [run]. destruct (FiletypeForName ft) as [f|e|] eqn:Ef.
      + inversion Hop; subst; [|contradiction (Hn eq_refl)|];
          cbn [Op_PutFile lift_op]; eexists w3, _; (split; [reflexivity|]; split; [exact S3|exact O3]).
      + eexists w3, _. split; [reflexivity|]. split; [exact S3|exact O3].
      + contradiction (filetype_no_panic ft).
    - unfold MkHelloCmd_Run. cbv zeta. destruct (negb (address mod 256 =? 0)).
      { eexists w, _. split; [reflexivity|]. split; [intros m; reflexivity|reflexivity]. }
      destruct ((if start =? 65535 then address else start) <? address).
      { eexists w, _. split; [reflexivity|]. split; [intros m; reflexivity|reflexivity]. }
      rewrite run_pbind, Er'. inversion Hop'; subst; [|contradiction (Hn eq_refl)|];
        eexists w2, _; (split; [reflexivity|]; split; [exact Hsf'|exact Hso']).
  Qed.
End Print.

(** ** decode *)
From Verif Require BasicModel BasicSpec BasicProofs BasicStmtProofs.
Lemma concat_bytes (l : list bytes) : Forall bytes_ok l -> bytes_ok (concat l).
Proof. induction 1 as [|x l H _ IH]; [constructor|]. cbn [concat]. apply Forall_app. split; assumption. Qed.
Lemma tokens_ok : forallb (fun t => forallb (fun b => (0 <=? b) && (b <? 256)) t) BasicModel.applesoftTokens = true.
Proof. vm_compute. reflexivity. Qed.
Lemma text_ok c : BasicSpec.applesoft_byte c -> bytes_ok (BasicSpec.applesoft_text c).
Proof.
  intros Hc. unfold BasicSpec.applesoft_byte in Hc. unfold BasicSpec.applesoft_text. destruct (Z.ltb_spec c 128); [constructor; [unfold is_byte; lia|constructor]|].
  apply Forall_app. split; [constructor; [unfold is_byte; lia|constructor]|]. apply Forall_app. split; [|constructor; [unfold is_byte; lia|constructor]].
  pose proof tokens_ok as T. rewrite forallb_forall in T. apply Dos3StmtProofs.bytes_ok_forallb.
  unfold znth. match goal with |- forallb _ (nth ?n ?l ?d) = true => destruct (nth_in_or_default n l d) as [I|E]; [exact (T _ I)|change (nth n l d = []) in E; cbv delta [bytes] in *; rewrite E; reflexivity] end.
Qed.

Lemma decode_prints ls loc t f file (raw : bool) w :
  0 < loc -> loc + zlen (BasicSpec.program loc ls) <= 65536 -> Forall BasicSpec.line_ok ls -> bytes_ok t ->
  (f = BasicSpec.program loc ls ++ t /\ ~ BasicSpec.has_header f) \/ (f = put16 (zlen (BasicSpec.program loc ls)) ++ BasicSpec.program loc ls ++ t /\ zlen t <= 1) ->
  input w file f -> w_outroom w = None ->
  exists ts out, Forall2 (fun l t => exists s, BasicSpec.decimal (BasicModel.l_Num l) s /\ t = s ++ [32] ++ concat (map BasicSpec.applesoft_text (BasicModel.l_Bytes l)) ++ [10]) ls ts /\
    (if raw then out = concat ts else BasicSpec.escaped (concat ts) out) /\
    eventually (fun fuel => prints (DecodeCmd_Run fuel file loc raw) w out).
Proof.
  intros H1 H2 H3 H4 H5 Hin Hw.
  destruct (BasicProofs.C59_text ls) as (ts & HF & ES).
  { eapply Forall_impl; [|exact H3]. intros l [Hn _]. unfold is_u16 in Hn. lia. }
  exists ts. exists (if raw then concat ts else BasicModel.ChevronControlCodes (concat ts)). split; [exact HF|].
  assert (bytes_ok (concat ts)) as B.
  { apply concat_bytes. clear - HF H3. induction HF as [|l t ls ts (s & D & ->) _ IH]; [constructor|]. inversion H3 as [|? ? [Hn Hb] H3']; subst. constructor; [|apply IH; exact H3'].
    destruct D as (_ & Ds & _). apply Forall_app. split; [eapply Forall_impl; [|exact Ds]; intros x Hx; cbv beta in Hx; unfold is_byte; lia|].
    apply Forall_app. split; [constructor; [unfold is_byte; lia|constructor]|]. apply Forall_app. split; [|constructor; [unfold is_byte; lia|constructor]].
    apply concat_bytes. apply Forall_map. eapply Forall_impl; [|exact Hb]. exact text_ok. }
  split; [destruct raw; [reflexivity|apply (BasicStmtProofs.C60_lemma _ B)]|].
  pose proof (BasicProofs.C55_decodes_stored_programs ls loc t f H1 H2 H3 H4 H5) as HR.
  eapply eventually_impl; [|exact (eventually_returns _ _ HR)]. intros k (r & -> & E). cbv beta in *.
  destruct (run_contents_ok w file f Hin) as (w1 & Er & Hsf & Hso & _ & Hor).
  unfold prints, DecodeCmd_Run. rewrite run_pbind, Er, run_pbind. unfold plift. cbn [run]. rewrite E. cbn [returned run].
  unfold sys_stdout. rewrite Hor, Hw. cbn [fits]. eexists. split; [reflexivity|]. split; [intros m; exact (Hsf m)|].
  cbn [add_out w_stdout]. rewrite Hso, ES. destruct raw; reflexivity.
Qed.

Lemma decode_guess_refuted : exists ls, Forall BasicSpec.line_ok ls /\ ls <> [] /\ 0x801 + zlen (BasicSpec.program 0x801 ls) <= 65536 /\
  forall file (raw : bool) w, input w file (BasicSpec.program 0x801 ls) ->
    eventually (fun fuel => fails_cleanly (DecodeCmd_Run fuel file 0x801 raw) w).
Proof.
  destruct BasicStmtProofs.C55_refuted_lemma as (ls & H1 & H2 & H3 & e & HR). exists ls. split; [exact H1|]. split; [exact H2|]. split; [exact H3|].
  intros file raw w Hin. eapply eventually_impl; [|exact (eventually_returns _ _ HR)]. intros k (r & -> & E). cbv beta in *.
  destruct (run_contents_ok w file _ Hin) as (w1 & Er & Hsf & Hso & _).
  exists w1, e. unfold DecodeCmd_Run. rewrite run_pbind, Er, run_pbind. unfold plift. cbn [run]. rewrite E. cbn [returned run].
  split; [reflexivity|]. split; [exact Hsf|exact Hso].
Qed.

(** ** Examples and C83 *)
Lemma detected : forall (iter : list (Z * Subdirectory) -> list (Z * Subdirectory)) img order system c sys d o,
  ProdosSpec.an_order iter -> seen_as img order c sys d o -> (system = s2b "auto" \/ system = sys) ->
  eventually (fun fuel => exists op, OpenImage c (image_name img) order system (DiskOperatorFactories iter fuel) = Ok (op, o) /\ Op_Name op = sys /\ Op_GetBytes op = d).
Proof.
  intros iter img order system c sys d o Hi Hs Hsys. eapply eventually_impl; [|exact (opens iter _ _ _ _ _ _ _ Hi Hs Hsys)].
  intros k (op & Ho & Hop). exists op. split; [exact Ho|]. apply (op_for_name sys d op (seen_len _ _ _ _ _ _ Hs) Hop).
Qed.
Lemma blank_opens : forall (iter : list (Z * Subdirectory) -> list (Z * Subdirectory)), ProdosSpec.an_order iter ->
  eventually (fun fuel => exists op, OpenImage (zeros 143360) (s2b "x.dsk") (s2b "auto") (s2b "auto") (DiskOperatorFactories iter fuel) = Ok (op, s2b "do") /\ Op_Name op = s2b "prodos").
Proof.
  intros iter Hi. eapply eventually_impl; [|exact (detected iter _ _ _ _ _ _ _ Hi ex_seen_zeros (or_introl eq_refl))].
  intros k (op & Ho & Hn & _). exists op. split; [exact Ho|exact Hn].
Qed.
Lemma cyclic_example : forall (iter : list (Z * Subdirectory) -> list (Z * Subdirectory)) fuel,
  zlen Dos3StmtProofs.ex_cyclic_disk = 143360 /\
  OpenImage Dos3StmtProofs.ex_cyclic_disk (s2b "x.dsk") (s2b "auto") (s2b "auto") (DiskOperatorFactories iter fuel) = Panic.
Proof.
  intros iter fuel. assert (zlen Dos3StmtProofs.ex_cyclic_disk = 143360) as L by (vm_compute; reflexivity). split; [exact L|].
  apply (hangs_at iter fuel (s2b "x.dsk") (s2b "auto") Dos3StmtProofs.ex_cyclic_disk [] (s2b "do") [s2b "po"] Dos3StmtProofs.ex_cyclic_disk L Dos3StmtProofs.ex_cyclic_disk_ok auto_dsk); [constructor| |exact Dos3StmtProofs.ex_cyclic].
  apply (reordered_self _ _ _ L il_do).
Qed.
(** Block 2 points to block 65535: no disk of any system in either order. *)
Definition ex_noise : bytes := repeat 0xFF (Z.to_nat 143360).
Lemma noise_sector t s : 0 <= t < 35 -> 0 <= s < 16 -> sector ex_noise t s = repeat 0xFF 256.
Proof.
  intros Ht Hs. assert (zlen ex_noise = 143360) as L by (unfold ex_noise, zlen; rewrite repeat_length; reflexivity).
  unfold sector. apply (znth_ext 0).
  - rewrite zlen_sub by (unfold offset; lia). unfold zlen. rewrite repeat_length. unfold offset. lia.
  - intros i Hi. rewrite zlen_sub in Hi by (unfold offset; lia). rewrite znth_sub by (unfold offset in *; lia).
    unfold ex_noise, offset in *. rewrite !GoLemmas.znth_repeat by lia. reflexivity.
Qed.
Lemma noise_len : zlen ex_noise = 143360.
Proof. unfold ex_noise, zlen. rewrite repeat_length. reflexivity. Qed.
Lemma reordered_noise a b la lb : interleave a la -> interleave b lb -> reordered ex_noise a b ex_noise.
Proof.
  intros Ia Ib. split; [exact noise_len|]. split; [exact noise_len|]. exists la, lb. split; [exact Ia|]. split; [exact Ib|].
  intros t s s' Ht Hs Hs' _. rewrite !noise_sector by assumption. reflexivity.
Qed.
Lemma noise_unreadable o l : interleave o l -> unreadable ex_noise o.
Proof.
  intros I. pose proof (reordered_noise _ _ _ _ I il_do) as R0. pose proof (reordered_noise _ _ _ _ I il_raw) as R1.
  apply (ur _ _ ex_noise ex_noise ex_noise); [exact R0| |exact R1| |exact (reordered_noise _ _ _ _ I il_po)|].
  - apply (not_dos_release _ _ _ R0). unfold release_byte. rewrite noise_sector by lia. vm_compute. discriminate.
  - assert (exists s, 0 <= s < 16 /\ znth 0 l s = 9) as (s & Hs & E).
    { destruct I; [exists 3|exists 12|exists 9]; (split; [lia|reflexivity]). }
    apply (not_naked _ _ _ _ s R1 I Hs E). rewrite noise_sector by lia. vm_compute. discriminate.
  - exists [], 65535. assert (ProdosSpec.next_block ex_noise 2 = 65535) as -> by (vm_compute; reflexivity).
    split; [constructor|]. split; [lia|]. unfold ProdosSpec.in_dev. rewrite noise_len. lia.
Qed.
Lemma noise_example : bytes_ok ex_noise /\ zlen ex_noise = 143360 /\ candidates (image_name (s2b "x.dsk")) (s2b "auto") [s2b "do"; s2b "po"] /\
  Forall (unreadable ex_noise) [s2b "do"; s2b "po"].
Proof.
  split; [apply Forall_forall; intros x Hx; apply repeat_spec in Hx; subst x; unfold is_byte; lia|]. split; [exact noise_len|]. split; [exact auto_dsk|].
  constructor; [apply (noise_unreadable _ _ il_do)|]. constructor; [apply (noise_unreadable _ _ il_po)|constructor].
Qed.

Lemma map_disk_bytes : bytes_ok (map_disk five_map).
Proof. apply Dos3StmtProofs.bytes_ok_forallb. vm_compute. reflexivity. Qed.
(** File 5, one zero sector, is the only file; there is no symbol table. *)
Lemma naked_example : exists c d, seen_as (s2b "x.do") (s2b "auto") c (s2b "nakedos") d (s2b "do") /\ names_on d [] /\ file_on d 5 = zeros 256 /\ numeric (s2b "DF05") 5.
Proof.
  destruct (do_image _ _ five_floppy) as [c [Hc Hf]]. exists c, (map_disk five_map).
  assert (Hrel : release_byte c <> 3).
  { rewrite <- (release_same _ _ _ _ Hc). unfold release_byte. rewrite map_disk_sector by reflexivity. rewrite znth_zeros; lia. }
  assert (L : zlen c = 143360) by apply Hc.
  destruct (reordered_ex c (s2b "do") (s2b "do") L (ex_intro _ _ il_do) (ex_intro _ _ il_do)) as [d0 R0].
  split; [|split; [|split]].
  - apply (sa_floppy _ _ _ [] _ []); [exact L|apply (reordered_bytes _ _ _ _ (reordered_back _ _ _ _ Hc) map_disk_bytes)|exact auto_do|constructor|].
    apply (ra_naked _ _ d0); [exact R0|apply (not_dos_release _ _ _ R0 Hrel)|exact Hc|exact Hf].
  - pose proof (NewOperator_floppy _ _ five_floppy) as E. eexists. split; [exact E|]. cbn [st_of op_ST].
    unfold opened_table, ReadSymbolTable, st_of. cbn [op_ST]. rewrite ReadFile_spec by apply (fl_len _ _ five_floppy).
    cbn [rbind]. unfold content. assert (owned five_map 3 = []) as -> by (vm_compute; reflexivity). reflexivity.
  - unfold file_on. rewrite (fl_map _ _ five_floppy). apply five_content.
  - destruct (parseAddress_cases (s2b "DF05")) as [(g & Hg & Eg)|[_ Hno]]; [|vm_compute in Hno; discriminate Hno].
    change (parseAddressFilename (s2b "DF05")) with 5 in Eg. subst g. exact Hg.
Qed.
Lemma decode_example : Forall BasicSpec.line_ok BasicStmtProofs.ex_small /\ ~ BasicSpec.has_header (BasicSpec.program 0x801 BasicStmtProofs.ex_small) /\
  0x801 + zlen (BasicSpec.program 0x801 BasicStmtProofs.ex_small) <= 65536 /\
  exists w', run (DecodeCmd_Run 5 (s2b "p") 0x801 false) (one_file (s2b "p") (BasicSpec.program 0x801 BasicStmtProofs.ex_small) None) = (w', Ok tt) /\
    w_stdout w' = s2b "10  PRINT ""HI""" ++ [10] ++ s2b "20  GOTO 10" ++ [10].
Proof.
  split; [apply BasicStmtProofs.ex_small_ok|]. split; [apply BasicStmtProofs.ex_small_ok|]. split; [apply Z.leb_le; vm_compute; reflexivity|].
  eexists. split; [|]. 
  - unfold DecodeCmd_Run, FileContentsOrStdIn. cbn [beq]. vm_compute. reflexivity.
  - vm_compute. reflexivity.
Qed.
Lemma dump_example : exists e ls data, Dos3Spec.lookup (Dos3Spec.entries Dos3StmtProofs.ex_dos_disk [(17, 15); (17, 14)]) (s2b "HELLO") e /\
  Dos3Spec.body Dos3StmtProofs.ex_dos_disk (znth 0 e 0, znth 0 e 1) ls data /\
  Dos3Spec.decoded (znth 0 e 2 mod 128) (zlen ls) data 0x801 [1; 2; 3; 4; 5].
Proof.
  exists (Dos3StmtProofs.ex_entry 18 15 0x82 (s2b "HELLO") 2), [(18, 15)], (sector Dos3StmtProofs.ex_dos_disk 18 14).
  assert (zlen Dos3StmtProofs.ex_dos_disk = 143360) as L by (vm_compute; reflexivity).
  split; [|split].
  - exists [], (tl (Dos3Spec.entries Dos3StmtProofs.ex_dos_disk [(17, 15); (17, 14)])). split; [vm_compute; reflexivity|]. split; [reflexivity|].
    split; [|intros x []]. exists 25%nat. split; [vm_compute; reflexivity|]. intros m x E.
    change (s2b "HELLO") with (s2b "HELL" ++ [79]) in E. apply app_inj_tail in E as [_ <-]. lia.
  - assert (Dos3Spec.link Dos3StmtProofs.ex_dos_disk 18 15 = (0, 0)) as EL by (vm_compute; reflexivity).
    split; [|].
    + change (znth 0 (Dos3StmtProofs.ex_entry 18 15 0x82 (s2b "HELLO") 2) 0, znth 0 (Dos3StmtProofs.ex_entry 18 15 0x82 (s2b "HELLO") 2) 1) with (18, 15).
      constructor; [| |rewrite EL; constructor].
      all: unfold Dos3Spec.in_image; rewrite ?L; unfold offset; try lia; try discriminate.
    + exists [(18, 14)]. split; [|split].
      * constructor. right. exists (18, 14), (repeat (0, 0) 121). split; [discriminate|]. split; [apply Forall_forall; intros x Hx; apply repeat_spec in Hx; exact Hx|].
        split; [exists []; reflexivity|vm_compute; reflexivity].
      * constructor; [|constructor]. right. unfold Dos3Spec.in_image. rewrite L. unfold offset. cbn [fst snd]. lia.
      * vm_compute. reflexivity.
  - assert ([1; 2; 3; 4; 5] = sub (Dos3Spec.pad (sector Dos3StmtProofs.ex_dos_disk 18 14) (31232 * zlen [(18, 15)])) 2 (2 + Dos3Spec.word (sector Dos3StmtProofs.ex_dos_disk 18 14) 0)) as -> by (vm_compute; reflexivity).
    apply Dos3Spec.dec_applesoft; [reflexivity|reflexivity|apply Z.leb_le; vm_compute; reflexivity].
Qed.
