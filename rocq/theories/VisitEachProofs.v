(** VisitEachProofs.v -- every result that dump, rm, put and mkhello may have is one they can have. *)
From Coq Require Import ZifyBool ZifyNat.
From Verif Require Import GoBase GoLemmas TypesModel DiskModel DiskSpec DiskProofs DiskOpenProofs.
From Verif Require Import SupermonModel SupermonSpec SupermonStoreSpec SupermonTableSpec SupermonProofs SupermonOpProofs.
From Verif Require Dos3Spec Dos3Model Dos3Proofs Dos3StmtProofs ProdosSpec ProdosProofs.
From Verif Require Import ProdosModel CmdModel CmdSpec CmdProofs CmdStmtProofs NakedCmdSpec NakedCmdProofs MainModel DetectSpec DetectProofs PrintProofs StatusSpec StatusProofs AfterProofs VolumeSpec VolumeProofs VolumeExProofs ImageSpec ImageProofs ImageExProofs VisitModel VisitProofs SupermonNamedProofs SupermonNameProofs.
Ltac Zify.zify_post_hook ::= Z.div_mod_to_equations.
Local Opaque zrange zeros sub.

(** What the file of that name comes to is what dump_shows says. *)
Lemma dump_each_fetch sys d n e : bytes_ok d -> (sys = s2b "nakedos" -> zlen d = 143360) -> dump_shows n sys d e ->
  eventually (fun k => forall op, op_for sys d op -> fetches n k op e).
Proof.
  intros B Lz H. destruct H as [d l e ls data start out C Hl Hb HD|d l e ls data C Hl Hb HF|d l e C Hl HO|d l C Hl|d N|d C|d t f Hno Hr Hne|d t Hno Hr|d].
  - destruct (Dos3StmtProofs.C19_lemma d l n e B C Hl) as [HG _]. destruct (HG ls data start out Hb HD) as (k0 & r & (ds & -> & _) & HK). exists k0. intros k Hk op Hop. inversion Hop; subst.
    exists (FI ds out start). split; [|reflexivity]. cbn [Op_GetFile]. rewrite (HK k Hk). reflexivity.
  - exists (S (length l + length ls)). intros k Hk op Hop. inversion Hop; subst. cbn [fetches Op_GetFile].
    rewrite (Dos3Proofs.GetFile_found d l n e ls data k B C Hl Hb) by lia. pose proof Hl as (a & b & _ & Live & _). rewrite (Dos3Proofs.result_fatal d e n ls data B Live Hb HF). reflexivity.
  - destruct (Dos3StmtProofs.C19_lemma d l n e B C Hl) as [_ HE]. destruct (HE HO) as (k0 & HK). exists k0. intros k Hk op Hop. inversion Hop; subst. destruct (HK k Hk) as [er E]. exists er. cbn [Op_GetFile]. rewrite E. reflexivity.
  - exists (S (length l)). intros k Hk op Hop. inversion Hop; subst. destruct (Dos3Proofs.GetFile_missing d l n k B C Hl ltac:(lia)) as [er E]. exists er. cbn [Op_GetFile]. rewrite E. reflexivity.
  - destruct (Dos3StmtProofs.rcs_classes d B) as [(l & C & _)|[(_ & H)|C]]; [contradiction (proj1 N); exists l; exact C| |contradiction (proj2 N C)].
    exists 561%nat. intros k Hk op Hop. inversion Hop; subst. destruct (H k Hk) as [e E]. exists e. cbn [Op_GetFile]. unfold Dos3Model.GetFile, Dos3Model.fileForFilename, Dos3Model.ReadCatalog. rewrite E. reflexivity.
  - exists 0%nat. intros k _ op Hop. inversion Hop; subst.
    pose proof (proj2 (proj1 (Dos3StmtProofs.C17_partial_lemma d B)) C k) as D'. cbv beta in D'. cbn [fetches Op_GetFile]. unfold Dos3Model.GetFile, Dos3Model.fileForFilename. rewrite D'. reflexivity.
  - exists 0%nat. intros k _ op Hop. inversion Hop as [|? op' En|]; subst op. destruct (NewOperator_ok _ _ (Lz eq_refl) En) as (Hok & Ed & Em & _).
    destruct Hno as (o1 & E1 & <-). assert (o1 = op') as -> by congruence.
    assert (Hc : content (op_data op') (op_SM op') f = file_on d f) by (rewrite Ed, Em; reflexivity).
    destruct (GetFile_content op' n f Hok Hr) as (i & Eg & Ei); [rewrite Hc; exact Hne|]. exists i. split; [exact Eg|]. rewrite Ei, Hc. reflexivity.
  - exists 0%nat. intros k _ op Hop. inversion Hop as [|? op' En|]; subst op. destruct (NewOperator_ok _ _ (Lz eq_refl) En) as (Hok & Ed & Em & _).
    destruct Hno as (o1 & E1 & <-). assert (o1 = op') as -> by congruence. cbn [fetches Op_GetFile]. unfold GetFile.
    destruct (FileForName_spec (st_of op') n) as [(f & E & Hf & _)|[E _]]; rewrite E; [|eexists; reflexivity].
    assert (Hc : content (op_data op') (op_SM op') f = file_on d f) by (rewrite Ed, Em; reflexivity).
    cbn [rbind]. rewrite ReadFile_spec by (rewrite Ed; exact (Lz eq_refl)). rewrite Hc, (Hr f Hf). eexists. reflexivity.
  - exists 0%nat. intros k _ op Hop. inversion Hop; subst. eexists. reflexivity.
Qed.
Lemma fetches_one n k op e e' : fetches n k op e -> fetches n k op e' -> e = e'.
Proof.
  destruct e as [t| |], e' as [t'| |]; cbn [fetches]; try reflexivity.
  - intros (i & E & <-) (i' & E' & <-). congruence.
  - intros (i & E & _) (er & E'). congruence.
  - intros (i & E & _) E'. congruence.
  - intros (er & E') (i & E & _). congruence.
  - intros (er & E) E'. congruence.
  - intros E' (i & E & _). congruence.
  - intros E' (er & E). congruence.
Qed.
Lemma dump_reached img order system c n w r e : bytes_ok c -> input w img c -> w_outroom w = None ->
  opening img order system c r -> afterwards r (dump_shows n) e ->
  exists vis, (forall o, ProdosSpec.an_order (vis o)) /\ ends_in (fun k => DumpCmd_Run_v vis k order system img n) w e.
Proof.
  intros B Hin Hw O A. destruct (opening_each_v img order system c r B O) as (vis & Hv & H). exists vis. split; [exact Hv|].
  assert (Hid : ProdosSpec.an_order (fun m => m)) by (intros m; apply Permutation.Permutation_refl).
  pose proof (dump_opened vis img order system c n w _ B Hin O H) as X.
  destruct r as [sys d o| |]; cbn [afterwards opened_ends] in A, X; [|subst e; exact X|subst e; exact X].
  destruct (opening_bytes _ _ _ _ _ _ _ B O) as (Bd & _ & _ & Hn).
  destruct (dump_exact (fun m => m) img o system c n w B Hid Hin Hw) as (r' & e' & O' & A' & E).
  rewrite (pinned_sure _ _ _ _ _ _ _ _ B O O') in A'. cbn [afterwards] in A'. apply (ends_in_ext _ _ _ _ X).
  pose proof (pinned_opens (fun m => m) _ _ _ _ _ _ _ B Hid O) as P. cbn [opens_as] in P.
  pose proof (eventually_and _ _ P (eventually_and _ _ (dump_each_fetch _ _ _ _ Bd (fun Y => proj1 (Hn Y)) A) (dump_each_fetch _ _ _ _ Bd (fun Y => proj1 (Hn Y)) A'))) as (k0 & HK).
  destruct (HK k0 (le_n _)) as ((op & _ & Hop) & F & F'). rewrite (fetches_one _ _ _ _ _ (F op Hop) (F' op Hop)). exact E.
Qed.

(** Edits. *)
Lemma edits_one (ok crash : bytes -> list Symbol -> Prop) r n n' : (forall d t, ok d t -> crash d t -> False) -> edits ok crash r n -> edits ok crash r n' -> n = n'.
Proof.
  intros Hex H H'. destruct H as [d o t Hn P|d o t Hn P|d o t Hn P Q|sys d o Hs| |]; inversion H' as [? ? t' Hn' P'|? ? t' Hn' P'|? ? t' Hn' P' Q'|? ? ? Hs'| |]; subst; try reflexivity;
    try (rewrite (names_det _ _ _ Hn Hn') in *); try (contradiction Hs; reflexivity); try (contradiction Hs'; reflexivity); exfalso;
    solve [exact (Hex _ _ P P')|exact (Hex _ _ P' P)|exact (P' P)|exact (Q' P)|exact (P P')|exact (Q P')].
Qed.
Lemma edits_reached img order system c w (P : (DiskOrder -> visiting) -> nat -> prog unit) (Q : DiskOrder -> nat -> prog unit) (ok crash : bytes -> list Symbol -> Prop) r n : bytes_ok c ->
  (forall d t, ok d t -> crash d t -> False) ->
  (forall vis r, opening img order system c r -> opens_v vis img order system c r -> opened_ends vis img order system c w (P vis) Q r) ->
  (forall o, exists r n, opening img o system c r /\ edits ok crash r n /\ eventually (fun k => exits (Q o k) w n)) ->
  opening img order system c r -> edits ok crash r n ->
  exists vis, (forall o, ProdosSpec.an_order (vis o)) /\ eventually (fun k => exits (P vis k) w n).
Proof.
  intros B Hex HP HQ O A. destruct (opening_each_v img order system c r B O) as (vis & Hv & H). exists vis. split; [exact Hv|].
  specialize (HP vis r O H). destruct r as [sys d o| |]; cbn [opened_ends] in HP.
  - destruct (HQ o) as (r' & n' & O' & A' & E). rewrite (pinned_sure _ _ _ _ _ _ _ _ B O O') in A'. rewrite (edits_one _ _ _ _ _ Hex A A').
    eapply eventually_impl; [|exact (eventually_and _ _ HP E)]. cbv beta. intros k [R X]. exact (exits_ext _ _ _ _ R X).
  - rewrite (edits_one _ _ _ _ _ Hex A (ed_refused _ _)). eapply eventually_impl; [|exact HP]. intros k (w' & e & E & S & _). exact (exits_err _ _ w' e E S).
  - rewrite (edits_one _ _ _ _ _ Hex A (ed_stuck _ _)). eapply eventually_impl; [|exact HP]. intros k (w' & E & S & _). exact (exits_panic _ _ w' E S).
Qed.
Lemma rm_reached img order system c force name w r n : bytes_ok c -> input w img c -> can_output w img true -> w_room w = None -> w_outroom w = None ->
  opening img order system c r -> edits (fun d t => rm_succeeds d t force name) (fun _ _ => False) r n ->
  exists vis, (forall o, ProdosSpec.an_order (vis o)) /\ eventually (fun k => exits (DeleteCmd_Run_v vis k order system force img name) w n).
Proof.
  intros B Hin Hco Hrm Hor O A.
  apply (edits_reached img order system c w (fun vis k => DeleteCmd_Run_v vis k order system force img name) (fun o k => DeleteCmd_Run (fun m => m) k o system force img name) _ _ r n B) in A; [exact A| | | |exact O].
  - intros d t _ [].
  - intros vis r'. apply rm_opened; assumption.
  - intros o. apply rm_exact; try assumption. intros m; apply Permutation.Permutation_refl.
Qed.
Lemma put_reached img order system c ft ow addr tgt src s w r n : bytes_ok c -> input w img c -> input w src s -> ~ (img = s2b "-" /\ src = s2b "-") ->
  can_output w img true -> w_room w = None -> w_outroom w = None -> is_ascii tgt ->
  opening img order system c r -> edits (fun d t => put_succeeds d t ft ow tgt s) (fun d t => put_crashes d t ft ow tgt s) r n ->
  exists vis, (forall o, ProdosSpec.an_order (vis o)) /\ eventually (fun k => exits (PutCmd_Run_v vis k order system ft ow addr img tgt src) w n).
Proof.
  intros B Hin Hsrc Hnd Hco Hrm Hor Ha O A.
  apply (edits_reached img order system c w (fun vis k => PutCmd_Run_v vis k order system ft ow addr img tgt src) (fun o k => PutCmd_Run (fun m => m) k o system ft ow addr img tgt src) _ _ r n B) in A; [exact A| | | |exact O].
  - intros d t (f & q & e & (_ & M & _) & H1 & _) (f' & q' & e' & (_ & M' & _) & -> & H2). destruct (meaning_one _ _ _ _ _ _ _ _ _ M M') as (-> & _). specialize (H1 eq_refl). lia.
  - intros vis r'. apply put_opened; assumption.
  - intros o. apply put_exact; try assumption. intros m; apply Permutation.Permutation_refl.
Qed.
Lemma mkhello_reached img order c name address start w r n : bytes_ok c -> input w img c -> can_output w img true -> w_room w = None -> w_outroom w = None ->
  opening img order (s2b "auto") c r ->
  ~ hello_at address start /\ n = 1 \/ hello_at address start /\ edits (fun d t => mkhello_succeeds d t name address start) (fun _ _ => False) r n ->
  exists vis, (forall o, ProdosSpec.an_order (vis o)) /\ eventually (fun k => exits (MkHelloCmd_Run_v vis k order img name address start) w n).
Proof.
  intros B Hin Hco Hrm Hor O A. assert (Hid : ProdosSpec.an_order (fun m => m)) by (intros m; apply Permutation.Permutation_refl). destruct A as [[Hh ->]|[Hh A]].
  - destruct (mkhello_visits (fun _ m => m) img order c name address start w B (fun _ => Hid) Hin Hco Hrm Hor) as (r' & n & _ & [[_ ->]|[X _]] & H3); [|contradiction].
    exists (fun _ m => m). split; [intros _; exact Hid|exact H3].
  - apply (edits_reached img order (s2b "auto") c w (fun vis k => MkHelloCmd_Run_v vis k order img name address start) (fun o k => MkHelloCmd_Run (fun m => m) k o img name address start) _ _ r n B) in A; [exact A| | | |exact O].
    + intros d t _ [].
    + intros vis r'. apply mkhello_opened; assumption.
    + intros o. destruct (mkhello_exact (fun m => m) img o c name address start w B Hid Hin Hco Hrm Hor) as (r' & n' & H1 & [[X _]|[_ H2]] & H3); [contradiction|]. exists r', n'. split; [exact H1|]. split; assumption.
Qed.
(** The image ex_astray of a kind not told: rm fails, or never ends. *)
Lemma astray_rm force name w : input w (s2b "x.po") ex_astray -> can_output w (s2b "x.po") true -> w_room w = None -> w_outroom w = None -> exists vis vis',
  (forall o, ProdosSpec.an_order (vis o)) /\ (forall o, ProdosSpec.an_order (vis' o)) /\
  eventually (fun k => exits (DeleteCmd_Run_v vis k (s2b "auto") (s2b "auto") force (s2b "x.po") name) w 1) /\
  eventually (fun k => exits (DeleteCmd_Run_v vis' k (s2b "auto") (s2b "auto") force (s2b "x.po") name) w 2).
Proof.
  intros Hin Hco Hrm Hor. destruct ex_astray_ok as (B & _). destruct astray_both as (O1 & O2 & _). remember ex_astray as v eqn:Ev. clear Ev.
  destruct (rm_reached _ _ _ v force name w _ 1 B Hin Hco Hrm Hor O1 (ed_refused _ _)) as (vis & Hv & E1).
  destruct (rm_reached _ _ _ v force name w _ 2 B Hin Hco Hrm Hor O2 (ed_stuck _ _)) as (vis' & Hv' & E2).
  exists vis, vis'. split; [exact Hv|]. split; [exact Hv'|]. split; [exact E1|exact E2].
Qed.
