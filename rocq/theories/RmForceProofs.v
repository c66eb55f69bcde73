(** RmForceProofs.v -- rm of a name without a file, with and without -f (C69). *)
From Coq Require Import ZifyBool ZifyNat.
From Verif Require Import GoBase GoLemmas TypesModel DiskModel DiskSpec DiskProofs DiskOpenProofs.
From Verif Require Import SupermonModel SupermonSpec SupermonTableSpec SupermonStoreSpec SupermonProofs SupermonSymProofs SupermonTabProofs SupermonLinkProofs SupermonOpProofs SupermonNameProofs SupermonFinalProofs SupermonNamedProofs SupermonStmtProofs SupermonRewriteProofs SupermonReadableProofs.
From Verif Require ProdosSpec.
From Verif Require Import ProdosModel CmdModel CmdSpec CmdProofs CmdStmtProofs NakedCmdSpec NakedCmdProofs NakedOpenProofs NakedNameProofs NakedExProofs DetectSpec DetectProofs PrintProofs ListSpec ListProofs OpenFuelProofs AfterProofs AfterRmProofs ReorderProofs AfterExProofs SessionExProofs.
Ltac Zify.zify_post_hook ::= Z.div_mod_to_equations.
Local Opaque zrange zeros sub.

Lemma DeleteSymbol_sok_first t n : zlen t <= 819 -> Forall s_ok t -> (forall i, find_name t n 0 = Some i -> ad t i <> 0) -> Forall s_ok (fst (DeleteSymbol t n)).
Proof.
  intros HL Hs Hi0. unfold DeleteSymbol. pose proof (find_name_spec t n 0) as Hf. destruct (find_name t n 0) as [i|]; [|exact Hs]. specialize (Hi0 i eq_refl).
  rewrite Z.sub_0_r in Hf. destruct Hf as (H1 & H2 & _). cbn [fst].
  change (s_link (znth sym0 t i)) with (lk t i). destruct (unlink_spec t (lk t i) 0 i) as [HLu HC].
  assert (0 <= i < zlen t) as Hi by lia.
  apply Forall_zset; [lia| |split; [unfold is_u16; cbn; lia|]; split; [left; reflexivity | cbn; lia]].
  apply (s_ok_pointwise t); [exact HLu|]. intros j Hj. pose proof (Forall_znth s_ok sym0 t j Hs Hj) as Hsj.
  destruct HC as [[_ ->]|(q & Q1 & Q2 & Q3 & Q4 & Q5)]; [exact Hsj|].
  destruct (Z.eq_dec j q) as [->|]; [|rewrite Q5 by lia; exact Hsj].
  rewrite Q4. destruct Hsj as (S1 & S2 & S3). split; [exact S1|]. split; [exact S2|]. cbn [set_link s_link s_addr].
  intros _. pose proof (Forall_znth s_ok sym0 t i Hs Hi) as (_ & _ & S4). apply S4. exact Hi0.
Qed.

(** Delete succeeds if the name means something and the table can be written. *)
Lemma Delete_works o n f d : reached o -> NewOperator d = Ok o -> bytes_ok d -> zlen d = 143360 -> op_data o = d ->
  resolves (st_of o) n f -> f <> 3 -> f <> 4 -> Forall (fun s => valid_name (s_name s)) (st_of o) ->
  exists o', Delete n o = (o', Ok (negb (beq (file_on d f) []))).
Proof.
  intros Hre En Hb Hd Ed Hres F3 F4 Hv. pose proof (reached_ok _ Hre) as Hok. pose proof (ok_fl _ Hok) as Hfl.
  destruct (NewOperator_ok d o Hd En) as (_ & _ & _ & H3). unfold Delete.
  assert (FileForName (st_of o) n = Ok f) as -> by (apply FileForName_resolves; exact Hres). cbv zeta.
  assert (Hf : legal f) by (destruct Hres as [[H _]|(_ & H & _)]; exact H).
  assert (Eex : (0 <? zlen (SectorsForFile (op_SM o) f)) = negb (beq (file_on d f) [])).
  { rewrite <- Ed, <- (content_file_on o f Hok), content_beq by apply (fl_len _ _ Hfl). rewrite SectorsForFile_owned, zlen_map.
    pose proof (zlen_nonneg (owned (op_SM o) f)). lia. }
  rewrite Eex. destruct (Delete_disk (op_data o) (op_SM o) f Hfl Hf) as (EP & Fl1 & _ & _ & Oth1 & _). rewrite EP.
  destruct (op_ST o) as [t|] eqn:Et; [|eexists; reflexivity].
  assert (Est : st_of o = t) by (unfold st_of; rewrite Et; reflexivity). rewrite Est in *.
  assert (HR : ReadSymbolTable (op_SM o) (op_data o) = Ok t).
  { rewrite <- (fl_map _ _ Hfl), Ed. unfold opened_table in H3. destruct (ReadSymbolTable (stored_map d) d); congruence. }
  destruct (ReadSymbolTable_read_ok _ _ _ (fl_len _ _ Hfl) ltac:(rewrite Ed; exact Hb) HR) as (HL & _ & Hr).
  destruct (table_files _ _ _ (fl_len _ _ Hfl) HR) as [T3 T4].
  assert (Hs : Forall s_ok t).
  { rewrite Forall_forall in *. intros s Hin. destruct (Hr s Hin) as (A & _ & B & _). split; [exact A|]. split; [apply Hv; exact Hin|exact B]. }
  assert (Hz : forall i, find_name t n 0 = Some i -> ad t i <> 0).
  { intros i Ei. pose proof (find_name_spec t n 0) as Hfn. rewrite Ei, Z.sub_0_r in Hfn. destruct Hfn as (I1 & I2 & I3).
    destruct Hres as [Hnum|(_ & _ & k & (K1 & K2 & K3) & K4)].
    - intros A0. pose proof (Forall_znth read_ok sym0 t i Hr ltac:(lia)) as (_ & _ & _ & R4). specialize (R4 A0). unfold nm in I2. rewrite R4 in I2.
      apply equal_fold_nil in I2. subst n. apply parseAddress_numeric in Hnum. unfold legal in Hf. vm_compute in Hnum. lia.
    - rewrite equal_fold_sym in K2. destruct (Ztrichotomy i k) as [L|[->|G]]; [|unfold legal in Hf; lia|].
      + rewrite equal_fold_sym, (K3 i ltac:(lia)) in I2. discriminate I2.
      + rewrite (I3 k ltac:(lia)) in K2. discriminate K2. }
  pose proof (DeleteSymbol_sok_first t n ltac:(lia) Hs Hz) as Hs1. pose proof (zlen_DeleteSymbol t n) as L1.
  destruct (DeleteSymbol t n) as [t1 [|]]; [|eexists; reflexivity]. cbn [fst] in *.
  destruct (write_read_exact t1 _ _ Fl1 ltac:(lia) Hs1) as (d2 & sm2 & EW & _).
  { destruct (Oth1 3 ltac:(lia) ltac:(unfold legal; lia)) as [-> _]. exact T3. }
  { destruct (Oth1 4 ltac:(lia) ltac:(unfold legal; lia)) as [-> _]. exact T4. }
  unfold sbind, on_disk. cbn [op_data op_SM op_ST]. rewrite EW. eexists. reflexivity.
Qed.

Section RmForce.
  Context (iter : list (Z * Subdirectory) -> list (Z * Subdirectory)).

  (** A name for a file that does not exist. *)
  Lemma rm_gone fuel order system img name w c op o f :
    input w img c -> OpenImage c (image_name img) order system (DiskOperatorFactories iter fuel) = Ok (ONaked op, o) ->
    resolves (st_of op) name f -> file_on (op_data op) f = [] ->
    (exists w' e, run (DeleteCmd_Run iter fuel order system false img name) w = (w', Err e) /\ same_files w w') /\
    (forall w' r, run (DeleteCmd_Run iter fuel order system true img name) w = (w', r) ->
       (r = Ok tt -> exists new d', output w w' img new /\ naked_image new o d' /\
          forall g, legal g -> g <> 3 -> g <> 4 -> file_on d' g = file_on (op_data op) g) /\
       (bytes_ok c -> Forall (fun s => valid_name (s_name s)) (st_of op) -> f <> 3 -> f <> 4 ->
        w_room w = None -> w_outroom w = None -> can_output w img true -> r = Ok tt)).
  Proof.
    intros Hi Ho Hres Hgone. destruct (open_run_ok iter fuel _ _ _ _ _ _ _ Hi Ho) as (w1 & Er & Hsf & Hso & Hrm & Hor & _).
    destruct (naked_opened iter fuel _ _ _ _ _ _ Ho) as (_ & Hr & En & Hd & Hre & Hni & Em & Hnm).
    pose proof (reached_ok _ Hre) as Hok.
    destruct (Delete name op) as [op' x] eqn:ED. destruct (Delete_inv _ _ _ _ Hok ED) as [Hok2 Hnp].
    assert (Hx : forall ex, x = Ok ex -> ex = false).
    { intros ex ->. destruct (Delete_parts name op op' ex Hok ED) as (f' & _ & _ & _ & Hres' & -> & _).
      pose proof (resolves_det _ _ _ _ Hres Hres') as <-. rewrite (content_file_on op f Hok), Hgone. reflexivity. }
    split.
    - exists w1. destruct x as [ex|e|]; [|exists e|contradiction Hnp; reflexivity].
      + rewrite (Hx ex eq_refl) in ED. eexists. split; [|exact Hsf]. unfold DeleteCmd_Run. rewrite run_pbind, Er. cbn [Op_Delete]. rewrite ED. reflexivity.
      + split; [|exact Hsf]. unfold DeleteCmd_Run. rewrite run_pbind, Er. cbn [Op_Delete]. rewrite ED. reflexivity.
    - intros w' r H. unfold DeleteCmd_Run in H. rewrite run_pbind, Er in H. cbn [Op_Delete] in H. rewrite ED in H. cbn [lift_op] in H.
      rewrite run_pbind in H. unfold plift in H. cbn [run] in H. destruct x as [ex|e|].
      2:{ cbn [run] in H. injection H as <- <-. split; [intros E; discriminate E|]. intros Hb Hv F3 F4 _ _ _. exfalso.
          destruct (Delete_works op name f (op_data op) Hre En) as [o2 E2]; try assumption; [|reflexivity|rewrite ED in E2; discriminate E2].
          apply (DetectProofs.reordered_bytes _ _ _ _ Hr Hb). }
      2:{ contradiction Hnp; reflexivity. }
      rewrite (Hx ex eq_refl) in *. cbn [negb andb] in H.
      destruct (writeback_run c o (op_data op) op' img Hr (fl_len _ _ (ok_fl _ Hok2))) as (new & Hnw & Hrun). rewrite Hrun in H. split.
      + intros ->. exists new, (op_data op'). split; [apply (output_files w w1 w' img new Hsf Hso); apply run_output in H; exact H|].
        split; [apply (new_image new o op' Hok2 Hnw)|]. intros g Hg G3 G4.
        destruct (Delete_parts name op op' false Hok ED) as (f' & d1 & sm1 & Hf & Hres' & _ & Fl1 & O1 & Oth1 & Hcase).
        pose proof (resolves_det _ _ _ _ Hres Hres') as <-.
        rewrite <- (content_file_on op'), <- (content_file_on op) by assumption.
        assert (Hs1 : content d1 sm1 g = content (op_data op) (op_SM op) g).
        { destruct (Z.eq_dec g f) as [->|Hgf]; [|apply Oth1; assumption]. rewrite (content_file_on op f Hok), Hgone.
          apply (content_nil_iff d1 sm1 f (fl_len _ _ Fl1)). exact O1. }
        destruct Hcase as [(_ & D1 & D2)|(t & Et & _ & EW)]; [rewrite D1, D2; exact Hs1|].
        assert (L1 : zlen (fst (DeleteSymbol t name)) <= 819) by (rewrite zlen_DeleteSymbol, (ok_st _ Hok t Et); clear; lia).
        destruct (WriteSymbolTable_any _ _ _ Fl1 L1) as (d2 & sm2 & r2 & E2 & _ & _ & Oth2 & _). rewrite EW in E2. injection E2 as <- <- <-.
        destruct (Oth2 g G3 G4 Hg) as [_ ->]. exact Hs1.
      + intros _ _ _ _ H1 H2 H3. destruct (run_output_ok w1 img new true) as [w2 E2]; [congruence|congruence| |congruence].
        destruct H3 as [H3|(H3 & H4 & H5)]; [left; exact H3|]. right. split; [exact H3|]. split; [|left; reflexivity].
        unfold writable in *. rewrite Hsf. exact H4.
  Qed.

  (** FHELLO stands for file 1, which does not exist. *)
  Lemma rm_gone_example fuel : exists c op,
    OpenImage c (image_name (s2b "x.do")) (s2b "auto") (s2b "auto") (DiskOperatorFactories iter fuel) = Ok (ONaked op, s2b "do") /\
    bytes_ok c /\ (forall g, ~ numeric (s2b "FHELLO") g) /\ resolves (st_of op) (s2b "FHELLO") 1 /\ file_on (op_data op) 1 = [] /\
    Forall (fun s => valid_name (s_name s)) (st_of op).
  Proof.
    destruct hello_table_ok as [T1 T4]. destruct (six_disk _ T1 T4) as (d & sm & Hf & HR & Hbd & O5 & C5 & _ & O1 & _).
    destruct (do_image _ _ Hf) as [c Hc].
    assert (Hbc : bytes_ok c) by (apply (DetectProofs.reordered_bytes _ _ _ _ (reordered_back _ _ _ _ (proj1 Hc)) Hbd)).
    assert (Hrel : release_byte c <> 3).
    { rewrite <- (release_same _ _ _ _ (proj1 Hc)). rewrite (five_release d sm O5 C5). lia. }
    destruct (open_naked iter fuel c (s2b "do") _ (s2b "x.do") (s2b "auto") first_do Hc Hrel) as (op & Eo & En).
    rewrite (NewOperator_floppy _ _ Hf) in En. injection En as <-. exists c. eexists. split; [exact Eo|]. split; [exact Hbc|].
    split; [apply not_numeric; vm_compute; reflexivity|]. unfold st_of, opened_table. cbn [op_ST op_data]. rewrite HR.
    split; [apply FileForName_resolves; vm_compute; reflexivity|]. split.
    - unfold file_on. rewrite (fl_map _ _ Hf). apply (content_nil_iff d sm 1 (fl_len _ _ Hf)). exact O1.
    - destruct T1 as (_ & Hs & _). eapply Forall_impl; [|exact Hs]. intros s (_ & H & _). exact H.
  Qed.
End RmForce.
