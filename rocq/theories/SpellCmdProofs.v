(** SpellCmdProofs.v -- proofs for C116: names that mean the same, and mkhello as a put. *)
From Coq Require Import ZifyBool ZifyNat.
From Verif Require Import GoBase GoLemmas TypesModel DiskModel DiskSpec DiskProofs DiskOpenProofs.
From Verif Require Import SupermonModel SupermonSpec SupermonTableSpec SupermonStoreSpec SupermonProofs SupermonSymProofs SupermonTabProofs SupermonLinkProofs SupermonNameProofs
  SupermonOpProofs SupermonNamedProofs SupermonFinalProofs SupermonStmtProofs.
From Verif Require ProdosSpec Dos3Spec Dos3StmtProofs.
From Verif Require Import ProdosModel CmdModel CmdSpec CmdProofs CmdStmtProofs MainModel NakedCmdSpec NakedCmdProofs NakedOpenProofs NakedNameProofs NakedExProofs DetectSpec DetectProofs PrintProofs ListSpec
  ListProofs AfterProofs CrashExProofs SessionSpec SessionExProofs StatusSpec StatusProofs SpellSpec SpellProofs.
Ltac Zify.zify_post_hook ::= Z.div_mod_to_equations.
Local Opaque zrange zeros sub.

(** ** PutFile depends on the meaning of the target *)
Lemma means_table d t n f q : put_meaning d t n f q false -> q <> [] -> t <> [].
Proof.
  intros M Hq Ht. assert (S : symbol_file t q f) by (inversion M; subst; [contradiction|assumption|assumption]).
  destruct S as (_ & i & (Hi & _) & _). rewrite Ht, (@zlen_nil Symbol) in Hi. lia.
Qed.
Lemma put_means d o n n' f q e q' e' fd x y z g dt a h ow : zlen d = 143360 -> op_SM o = stored_map d ->
  put_meaning d (st_of o) n f q e -> put_meaning d (st_of o) n' f q' e' -> same_meaning q e q' e' ->
  same_disk (PutFile (FI (Desc n fd x y z false g) dt a) ow o) (PutFile (FI (Desc n' fd x y z false g) dt h) ow o).
Proof.
  intros Hd Em M M' HS. unfold PutFile. cbn [fi_desc_ fi_data d_type d_length d_name]. destruct (negb _); [split; reflexivity|]. destruct (negb _); [split; reflexivity|].
  pose proof (meaning_exact d (st_of o) n Hd) as HM. pose proof (meaning_exact d (st_of o) n' Hd) as HM'.
  destruct (FilesForCompoundName (st_of o) n) as [[[nf mf] q0]|er|]; [|contradiction (HM _ _ _ M)|contradiction].
  destruct (FilesForCompoundName (st_of o) n') as [[[nf' mf'] q0']|er'|]; [|contradiction (HM' _ _ _ M')|contradiction].
  cbv zeta in HM, HM'. cbv zeta. rewrite Em. remember (if nf =? 0 then FirstFreeFile (stored_map d) else nf) as num eqn:En. clear En.
  remember (if nf' =? 0 then FirstFreeFile (stored_map d) else nf') as num' eqn:En'. clear En'.
  destruct HM as [(H0 & _ & e0 & M0 & He)|[_ HM]]; [|contradiction (HM _ _ _ M)]. destruct HM' as [(H0' & _ & e0' & M0' & He')|[_ HM']]; [|contradiction (HM' _ _ _ M')].
  destruct (meaning_one _ _ _ _ _ _ _ _ _ M0 M) as (-> & -> & ->). destruct (meaning_one _ _ _ _ _ _ _ _ _ M0' M') as (-> & -> & ->).
  replace (f =? 0) with false by lia.
  destruct HS as [(-> & -> & V & V')|[<- Hq]].
  - assert (Hsy : forall m p, put_meaning d (st_of o) m f p false -> valid_name p ->
      (if beq p [] then Ok tt else match op_ST o with
             | None => Err (EOther "cannot use symbolic names on disks without valid symbol tables")
             | Some _ => _ <- encodeSymbol p ;; Ok tt end) = Ok tt).
    { intros m p Mm Vp. destruct (beq p []) eqn:Bp; [reflexivity|]. apply beq_neq in Bp. pose proof (means_table _ _ _ _ _ Mm Bp) as Ht.
      destruct (op_ST o) as [t|] eqn:Eo; [|contradiction Ht; unfold st_of; rewrite Eo; reflexivity]. destruct (encode_valid p Vp) as (six & -> & _). reflexivity. }
    rewrite (Hsy n q M V), (Hsy n' q' M' V'). unfold sbind at 1 3. destruct (on_disk _ o) as [o1 [b|e1|]]; [|split; reflexivity|split; reflexivity].
    assert (N : negb (mf =? f) && negb (beq q []) = false).
    { destruct (beq q []) eqn:Bp; [apply andb_false_r|]. apply beq_neq in Bp. rewrite <- (He Bp). reflexivity. }
    assert (N' : negb (mf' =? f) && negb (beq q' []) = false).
    { destruct (beq q' []) eqn:Bp; [apply andb_false_r|]. apply beq_neq in Bp. rewrite <- (He' Bp). reflexivity. }
    rewrite N, N'. split; reflexivity.
  - apply alike_iff in Hq. rewrite (alike_nil _ _ Hq), (alike_encode _ _ Hq).
    assert (N : negb (mf =? f) && negb (beq q' []) = negb (mf' =? f) && negb (beq q' [])).
    { destruct (beq q' []) eqn:Bp; [rewrite !andb_false_r; reflexivity|]. rewrite <- He', <- He; [reflexivity| |apply beq_neq; exact Bp].
      apply beq_neq. rewrite (alike_nil _ _ Hq). exact Bp. }
    rewrite N. clear N. destruct (if beq q' [] then _ else _) as [[]|e1|]; [|split; reflexivity|split; reflexivity].
    unfold sbind at 1 3. destruct (on_disk _ o) as [o1 [b|e1|]]; [|split; reflexivity|split; reflexivity].
    destruct (negb (mf' =? f) && negb (beq q' [])); [|split; reflexivity].
    destruct (alike_add (st_of o1) q q' (u16 (57088 + f)) Hq) as [A1 A2].
    destruct (AddSymbol (st_of o1) q _) as [t1 r1]; destruct (AddSymbol (st_of o1) q' _) as [t1' r1']. cbn [fst snd] in A1, A2. subst r1'.
    destruct r1 as [[]|e1|]; [|split; reflexivity|split; reflexivity].
    unfold sbind, on_disk. cbn [op_data op_SM op_ST]. rewrite (twin_write _ _ _ A1). destruct (WriteSymbolTable t1' _) as [[d2 sm2] [[]| |]]; split; reflexivity.
Qed.
Lemma target_load t n f : target t n f -> exists nf mf q, FilesForCompoundName t n = Ok (nf, mf, q) /\ nf = f.
Proof.
  intros [n0 f0 C R|p q f0 Cp Cq N M].
  - destruct (FilesForCompoundName_simple t n0 C) as (F1 & F2 & _). destruct R as [R|[R S]]; eexists _, _, _; (split; [first [apply (F1 _ R)|apply (F2 _ R S)]|reflexivity]).
  - destruct (FilesForCompoundName_compound t p q Cp Cq) as [F _]. destruct (F _ N M) as [F1 F2].
    destruct (FileForName_spec t q) as [(g & _ & [R|[_ R]] & _)|[_ R]]; [contradiction (M _ R)|eexists _, _, _; split; [apply (F1 _ R)|reflexivity]|].
    eexists _, _, _. split; [apply F2|reflexivity]. intros g Hg. apply (R g). right. split; assumption.
Qed.

Section Same.
  Context (iter : list (Z * Subdirectory) -> list (Z * Subdirectory)).
  (** Opening a NakedOS image. *)
  Lemma opens_naked img order system c d o t w : ProdosSpec.an_order iter -> seen_as img order c (s2b "nakedos") d o ->
    (system = s2b "auto" \/ system = s2b "nakedos") -> names_on d t -> input w img c ->
    exists op w1, NewOperator d = Ok op /\ st_of op = t /\ op_SM op = stored_map d /\ zlen d = 143360 /\ w_fs w1 = w_fs w /\
      eventually (fun k => run (OpenFilename iter k img order system) w = (w1, Ok (ONaked op, o))).
  Proof.
    intros Hi Hs Hsys (op0 & En0 & Et) Hin. destruct (seen_len _ _ _ _ _ _ Hs) as [Hz|Hz]; [|contradiction (Hz eq_refl)].
    destruct (NewOperator_ok _ _ Hz En0) as (Hok & Ed & Em & _).
    assert (Hr : exists w1, w_fs w1 = w_fs w /\ forall k, run (OpenFilename iter k img order system) w = (w1, OpenImage c (image_name img) order system (DiskOperatorFactories iter k))).
    { unfold OpenFilename, image_name. change dash with (s2b "-"). destruct Hin as [[-> Hst]|[Hn [wr Hf]]].
      - rewrite beq_refl. eexists. split; [|intros k; rewrite run_pbind; cbn [run]; unfold sys_stdin; rewrite Hst; reflexivity]. reflexivity.
      - destruct (beq img (s2b "-")) eqn:B; [apply beq_eq in B; contradiction|]. exists w. split; [reflexivity|]. intros k. rewrite run_pbind. cbn [run]. unfold sys_read. rewrite Hf. reflexivity. }
    destruct Hr as (w1 & Hw & Er). exists op0, w1. split; [exact En0|]. split; [exact Et|]. split; [exact Em|]. split; [exact Hz|]. split; [exact Hw|].
    eapply eventually_impl; [|exact (opens iter _ _ _ _ _ _ _ Hi Hs Hsys)]. intros k (op & Ho & Hop). inversion Hop as [| ? op1 En|]; subst.
    assert (op1 = op0) as -> by congruence. rewrite Er, Ho. reflexivity.
  Qed.
  Lemma dump_same img order system c d o t n n' w : ProdosSpec.an_order iter -> seen_as img order c (s2b "nakedos") d o ->
    (system = s2b "auto" \/ system = s2b "nakedos") -> names_on d t -> input w img c ->
    upcase n = upcase n' \/ (exists f, resolves t n f /\ resolves t n' f) ->
    eventually (fun k => main_run (DumpCmd_Run iter k order system img n) w = main_run (DumpCmd_Run iter k order system img n') w).
  Proof.
    intros Hi Hs Hsys Ht Hin H. destruct (opens_naked _ _ _ _ _ _ _ _ Hi Hs Hsys Ht Hin) as (op & w1 & _ & Est & _ & _ & _ & Eo).
    assert (EF : FileForName t n = FileForName t n').
    { destruct H as [H|(f & H1 & H2)]; [apply alike_file, alike_iff; exact H|]. apply FileForName_resolves in H1, H2. congruence. }
    eapply eventually_impl; [|exact Eo]. intros k Ek. unfold main_run, DumpCmd_Run. rewrite !run_pbind, Ek. cbn [Op_GetFile]. unfold GetFile. rewrite Est, EF. reflexivity.
  Qed.
  Lemma put_same img order system c d o t n f q e n' q' e' ft ow addr addr' src w : ProdosSpec.an_order iter -> seen_as img order c (s2b "nakedos") d o ->
    (system = s2b "auto" \/ system = s2b "nakedos") -> names_on d t -> input w img c ->
    put_meaning d t n f q e -> put_meaning d t n' f q' e' -> same_meaning q e q' e' ->
    eventually (fun k => main_run (PutCmd_Run iter k order system ft ow addr img n src) w = main_run (PutCmd_Run iter k order system ft ow addr' img n' src) w).
  Proof.
    intros Hi Hs Hsys Ht Hin M M' HS. destruct (opens_naked _ _ _ _ _ _ _ _ Hi Hs Hsys Ht Hin) as (op & w1 & _ & Est & Em & Hz & _ & Eo).
    eapply eventually_impl; [|exact Eo]. intros k Ek. unfold main_run, PutCmd_Run. destruct (_ && _); [reflexivity|]. rewrite !run_pbind, Ek. rewrite !run_pbind.
    destruct (run (FileContentsOrStdIn src) w1) as [w2 [s| |]]; [|reflexivity|reflexivity]. rewrite !run_pbind. unfold plift at 1 3.
    destruct (FiletypeForName ft) as [ftv| |]; cbn [run]; [|reflexivity|reflexivity]. cbn [Op_PutFile].
    rewrite (finish_same img (PutFile (FI (Desc n [] 0 0 (zlen s) false ftv) s addr) ow op) (PutFile (FI (Desc n' [] 0 0 (zlen s) false ftv) s addr') ow op)); [reflexivity|].
    rewrite <- Est in M, M'. apply (put_means d op n n' f q e q' e'); assumption.
  Qed.
  Lemma mkhello_same img order c d o t n n' f a s w : ProdosSpec.an_order iter -> seen_as img order c (s2b "nakedos") d o ->
    names_on d t -> input w img c -> target t n f -> target t n' f ->
    eventually (fun k => main_run (MkHelloCmd_Run iter k order img n a s) w = main_run (MkHelloCmd_Run iter k order img n' a s) w).
  Proof.
    intros Hi Hs Ht Hin T T'. destruct (opens_naked _ _ _ _ _ _ _ _ Hi Hs (or_introl eq_refl) Ht Hin) as (op & w1 & _ & Est & _ & _ & _ & Eo).
    assert (Hl : legal f) by (destruct T as [? ? ? R|? ? ? ? ? R _]; [exact (resolves_legal _ _ _ R)|apply R]).
    destruct (target_load _ _ _ T) as (nf & mf & q & E & ->). destruct (target_load _ _ _ T') as (nf' & mf' & q' & E' & ->).
    eapply eventually_impl; [|exact Eo]. intros k Ek. unfold main_run, MkHelloCmd_Run. cbv zeta. destruct (negb _); [reflexivity|]. destruct (_ <? _); [reflexivity|].
    rewrite !run_pbind, Ek. rewrite !run_pbind. unfold plift at 1 3. rewrite Est, E, E'. cbn [run]. unfold legal in Hl. replace (f =? 0) with false by lia. reflexivity.
  Qed.
  (** rm by number. *)
  Lemma find_numeric t n f : no_numeric_symbols t -> Forall (fun s => Forall alnum (s_name s)) t -> numeric n f -> find_name t n 0 = None.
  Proof.
    intros Hn Ha Hf. pose proof (find_name_spec t n 0) as HF. destruct (find_name t n 0) as [i|]; [|reflexivity]. rewrite Z.sub_0_r in HF. destruct HF as (Hi & He & _).
    exfalso. apply (Hn i f Hi). pose proof (numeric_parse (nm t i) f) as NP. apply NP; [|unfold numeric, legal in Hf; lia].
    rewrite <- (parseAddress_numeric _ _ Hf). apply alike_address, alike_iff. symmetry.
    apply fold_upcase_eq; [destruct Hf as (_ & v & Hv & _); eapply Forall_impl; [|exact (hex_number_chars _ _ Hv)]; intros x (y & []); unfold alnum, letter, digit; lia|exact (Forall_znth _ sym0 t i Ha Hi)|exact He].
  Qed.
  Lemma rm_same img order system c d o t n n' f force w : ProdosSpec.an_order iter -> seen_as img order c (s2b "nakedos") d o ->
    (system = s2b "auto" \/ system = s2b "nakedos") -> names_on d t -> input w img c -> no_numeric_symbols t -> numeric n f -> numeric n' f ->
    eventually (fun k => main_run (DeleteCmd_Run iter k order system force img n) w = main_run (DeleteCmd_Run iter k order system force img n') w).
  Proof.
    intros Hi Hs Hsys Ht Hin Hno N N'. destruct (opens_naked _ _ _ _ _ _ _ _ Hi Hs Hsys Ht Hin) as (op & w1 & En & Est & _ & Hz & _ & Eo).
    assert (Ha : Forall (fun s => Forall alnum (s_name s)) t) by (destruct (seen_bytes _ _ _ _ _ Hs) as [Hb _]; apply (names_alnum d t Hb Hz Ht)).
    assert (EF : FileForName t n = FileForName t n') by (pose proof (proj2 (FileForName_resolves t n f) (or_introl N)); pose proof (proj2 (FileForName_resolves t n' f) (or_introl N')); congruence).
    assert (ED : DeleteSymbol t n = DeleteSymbol t n') by (unfold DeleteSymbol; rewrite (find_numeric t n f Hno Ha N), (find_numeric t n' f Hno Ha N'); reflexivity).
    eapply eventually_impl; [|exact Eo]. intros k Ek. unfold main_run, DeleteCmd_Run. rewrite !run_pbind, Ek. cbn [Op_Delete].
    assert (Delete n op = Delete n' op) as ->; [|reflexivity]. unfold Delete. rewrite Est, EF. destruct (FileForName t n') as [g| |]; [|reflexivity|reflexivity].
    destruct (Persist _ _) as [d1 [[]| |]]; [|reflexivity|reflexivity]. destruct (op_ST op) as [t0|] eqn:E0; [|reflexivity].
    assert (t0 = t) as -> by (unfold st_of in Est; rewrite E0 in Est; exact Est). rewrite ED. reflexivity.
  Qed.
  (** mkhello and a put of the loader. *)
  Lemma mkhello_put img order c d o t n f a s0 ft addr src r w : ProdosSpec.an_order iter -> seen_as img order c (s2b "nakedos") d o ->
    names_on d t -> input w img c -> target t n f -> 0 <= a < 65536 -> 0 <= s0 < 65536 ->
    let start := if s0 =? 0xFFFF then a else s0 in
    a mod 256 = 0 -> a <= start -> binary ft = true -> src <> s2b "-" ->
    w_fs w src = NFile [0x20; 0x40; 0x03; 0x6D; 0x01; 0xDC; 0x2C; f; 0xDF; 0x2C; 0; a / 256; 0xD8; 0x4C; start mod 256; start / 256] true r ->
    eventually (fun k => main_run (MkHelloCmd_Run iter k order img n a s0) w = main_run (PutCmd_Run iter k order (s2b "auto") ft true addr img (s2b "DF01:FHELLO") src) w).
  Proof.
    intros Hi Hs Ht Hin T Ha H0 start Hp Hst Hft Hsrc Hf. destruct (opens_naked _ _ _ _ _ _ _ _ Hi Hs (or_introl eq_refl) Ht Hin) as (op & w1 & _ & Est & _ & _ & Ew & Eo).
    assert (Hl : legal f) by (destruct T as [? ? ? R|? ? ? ? ? R _]; [exact (resolves_legal _ _ _ R)|apply R]).
    destruct (target_load _ _ _ T) as (nf & mf & q & E & ->).
    assert (Hs16 : 0 <= start < 65536) by (unfold start; destruct (s0 =? 65535); lia).
    assert (Hh : hello_program f a start = [0x20; 0x40; 0x03; 0x6D; 0x01; 0xDC; 0x2C; f; 0xDF; 0x2C; 0; a / 256; 0xD8; 0x4C; start mod 256; start / 256]).
    { unfold hello_program, u8. rewrite (Z.mod_small (a / 256)) by lia. rewrite (Z.mod_small (start / 256)) by lia. reflexivity. }
    rewrite <- Hh in Hf. clear Hh. unfold binary in Hft. destruct (FiletypeForName ft) as [ftv| |] eqn:Eft; [|discriminate Hft|discriminate Hft]. apply Z.eqb_eq in Hft. subst ftv.
    eapply eventually_impl; [|exact Eo]. intros k Ek. unfold main_run, MkHelloCmd_Run, PutCmd_Run. cbv zeta. change (if s0 =? 65535 then a else s0) with start.
    rewrite Hp. change (negb (0 =? 0)) with false. cbv iota. replace (start <? a) with false by lia.
    assert (Bs : beq src dash = false) by (change dash with (s2b "-"); destruct (beq src (s2b "-")) eqn:B; [apply beq_eq in B; contradiction|reflexivity]).
    rewrite Bs, andb_false_r. rewrite !run_pbind, Ek. rewrite !run_pbind. unfold plift at 1. rewrite Est, E. cbn [run]. unfold legal in Hl. replace (f =? 0) with false by lia. cbn [andb].
    unfold FileContentsOrStdIn. rewrite Bs. cbn [run]. unfold sys_read. rewrite Ew, Hf. cbn [run]. rewrite !run_pbind. unfold plift at 2. rewrite Eft. cbn [run Op_PutFile].
    rewrite (finish_same img (PutFile (FI (Desc (s2b "DF01:" ++ helloName) [] 0 0 (zlen (hello_program f a start)) false FiletypeBinary) (hello_program f a start) 0) true op)
      (PutFile (FI (Desc (s2b "DF01:FHELLO") [] 0 0 (zlen (hello_program f a start)) false FiletypeBinary) (hello_program f a start) addr) true op)); [reflexivity|].
    apply alike_put. apply alike_refl.
  Qed.
End Same.
