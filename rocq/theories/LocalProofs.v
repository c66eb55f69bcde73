(** LocalProofs.v -- what ls and dump show depends only on the part of the disk they show. *)
From Coq Require Import ZifyBool ZifyNat.
From Verif Require Import GoBase GoLemmas TypesModel DiskModel DiskSpec DiskProofs.
From Verif Require Import SupermonModel SupermonSpec SupermonTableSpec SupermonProofs SupermonOpProofs SupermonNameProofs SupermonNamedProofs.
From Verif Require Dos3Model Dos3Spec Dos3Proofs ProdosSpec.
From Verif Require Import ProdosModel CmdModel CmdSpec CmdProofs MainModel NakedCmdSpec NakedCmdProofs DetectSpec DetectProofs LocalSpec LocalProdosProofs.
Ltac Zify.zify_post_hook ::= Z.div_mod_to_equations.
Local Opaque zrange zeros sub.

(** ** Chains *)
Section Chains.
  Context (d d' : bytes) (good good' : Z -> Z -> Prop) (G : forall t s, good t s <-> good' t s).
  Lemma reach_step t s q : (t, s) <> (0, 0) -> good t s -> reaches good d (Dos3Spec.link d t s) q -> reaches good d (t, s) q.
  Proof. intros N g [Hq [l H]]. split; [exact Hq|]. exists ((t, s) :: l). constructor; assumption. Qed.
  Lemma link_same t s : (t, s) <> (0, 0) -> (forall q, reaches good d (t, s) q -> same_sector d d' q) -> Dos3Spec.link d t s = Dos3Spec.link d' t s.
  Proof.
    intros N H. unfold Dos3Spec.link. assert (same_sector d d' (t, s)) as E by (apply H; split; [exact N|exists []; constructor]).
    unfold same_sector in E. cbn [fst snd] in E. rewrite E. reflexivity.
  Qed.
  Lemma path_there p l q : Dos3Spec.path good d p l q -> (forall r, reaches good d p r -> same_sector d d' r) -> Dos3Spec.path good' d' p l q.
  Proof.
    induction 1 as [p|t s l q N g _ IH]; intros H; [constructor|]. constructor; [exact N|apply G; exact g|].
    rewrite <- (link_same t s N H). apply IH. intros r Hr. apply H, (reach_step t s r N g Hr).
  Qed.
  Lemma path_here p l q : Dos3Spec.path good' d' p l q -> (forall r, reaches good d p r -> same_sector d d' r) -> Dos3Spec.path good d p l q.
  Proof.
    induction 1 as [p|t s l q N g _ IH]; intros H; [constructor|]. apply G in g. constructor; [exact N|exact g|].
    rewrite <- (link_same t s N H) in IH. apply IH. intros r Hr. apply H, (reach_step t s r N g Hr).
  Qed.
  Lemma chain_iff p l : (forall r, reaches good d p r -> same_sector d d' r) -> (Dos3Spec.chain good d p l <-> Dos3Spec.chain good' d' p l).
  Proof.
    intros H. split; intros C; apply Dos3Proofs.chain_path in C; apply Dos3Proofs.path_chain; [exact (path_there _ _ _ C H)|exact (path_here _ _ _ C H)].
  Qed.
  Lemma path_reach p l q : Dos3Spec.path good d p l q -> forall r, In r l -> reaches good d p r.
  Proof.
    induction 1 as [p|t s l q N g _ IH]; intros r Hr; [destruct Hr|]. destruct Hr as [<-|Hr]; [split; [exact N|exists []; constructor]|].
    apply (reach_step t s r N g). exact (IH r Hr).
  Qed.
End Chains.

(** ** DOS 3.3 *)
Section Dos.
  Context (d d' : bytes) (Z' : zlen d' = zlen d) (S' : forall q, dos_part d q -> same_sector d d' q).
  Lemma vtoc_same : Dos3Spec.vtoc d = Dos3Spec.vtoc d'.
  Proof. apply (S' (17, 0)). left. reflexivity. Qed.
  Lemma place_iff t s : Dos3Spec.catalog_place d t s <-> Dos3Spec.catalog_place d' t s.
  Proof. unfold Dos3Spec.catalog_place. rewrite <- vtoc_same, Z'. reflexivity. Qed.
  Lemma image_iff t s : Dos3Spec.in_image d t s <-> Dos3Spec.in_image d' t s.
  Proof. unfold Dos3Spec.in_image. rewrite Z'. reflexivity. Qed.
  Lemma start_same : Dos3Spec.catalog_start d = Dos3Spec.catalog_start d'.
  Proof. unfold Dos3Spec.catalog_start. rewrite <- vtoc_same. reflexivity. Qed.
  Lemma cat_part : Dos3Spec.good_vtoc (Dos3Spec.vtoc d) -> forall r, reaches (Dos3Spec.catalog_place d) d (Dos3Spec.catalog_start d) r -> same_sector d d' r.
  Proof. intros V r Hr. apply S'. right. split; assumption. Qed.
  Lemma catalog_iff l : Dos3Spec.catalog d l <-> Dos3Spec.catalog d' l.
  Proof.
    unfold Dos3Spec.catalog. rewrite <- vtoc_same, <- start_same, (image_iff 17 0). split; intros (H1 & H2 & H3); (split; [exact H1|]; split; [exact H2|]);
      apply (chain_iff d d' _ _ place_iff _ l (cat_part H2)); exact H3.
  Qed.
  Lemma not_dos_same : not_dos d -> not_dos d'.
  Proof.
    intros [N1 N2]. split.
    - intros [l C]. apply N1. exists l. apply catalog_iff. exact C.
    - intros (H1 & H2 & l & q & P & Hi). apply N2. rewrite <- vtoc_same in H2. rewrite <- start_same in P. split; [apply image_iff; exact H1|]. split; [exact H2|].
      exists l, q. split; [|exact Hi]. exact (path_here d d' _ _ place_iff _ _ _ P (cat_part H2)).
  Qed.
  Lemma entries_same l : Dos3Spec.catalog d l -> Dos3Spec.entries d l = Dos3Spec.entries d' l.
  Proof.
    intros (_ & V & C). unfold Dos3Spec.entries. f_equal. apply map_ext_in. intros p Hp. apply Dos3Proofs.chain_path in C.
    pose proof (cat_part V p (path_reach d _ _ _ _ C p Hp)) as E. unfold same_sector in E. rewrite E. reflexivity.
  Qed.

  Section File.
    Context (p : Z * Z).
    Context (H1 : forall q, reaches (Dos3Spec.in_image d) d p q -> same_sector d d' q).
    Context (H2 : forall r q, reaches (Dos3Spec.in_image d) d p r -> q <> (0, 0) -> In q (Dos3Spec.pairs (sector d (fst r) (snd r))) -> same_sector d d' q).
    Lemma cut_incl ps q : In q (Dos3Proofs.cut ps) -> In q ps.
    Proof.
      intros H. destruct (Dos3Proofs.cut_spec ps) as [[_ E]|(x & z & _ & _ & _ & E)]; [rewrite <- E; exact H|]. rewrite E. apply in_or_app. left. exact H.
    Qed.
    Lemma fpairs_same l : (forall r, In r l -> reaches (Dos3Spec.in_image d) d p r) ->
      Dos3Proofs.fpairs d l = Dos3Proofs.fpairs d' l /\
      forall q, In q (Dos3Proofs.fpairs d l) -> exists r, In r l /\ In q (Dos3Spec.pairs (sector d (fst r) (snd r))).
    Proof.
      induction l as [|r l IH]; intros Hl; [split; [reflexivity|intros q []]|].
      assert (sector d (fst r) (snd r) = sector d' (fst r) (snd r)) as E by exact (H1 r (Hl r (or_introl eq_refl))).
      destruct (IH (fun x Hx => Hl x (or_intror Hx))) as [E1 E2]. cbn [Dos3Proofs.fpairs]. rewrite <- E, <- E1. split; [reflexivity|].
      intros q Hq. apply in_app_or in Hq as [Hq|Hq].
      - exists r. split; [left; reflexivity|]. destruct l; [apply cut_incl; exact Hq|exact Hq].
      - destruct (E2 q Hq) as (x & Hx & Hq'). exists x. split; [right; exact Hx|exact Hq'].
    Qed.
    Lemma pair_ok_same q : Dos3Spec.pair_ok d q <-> Dos3Spec.pair_ok d' q.
    Proof. unfold Dos3Spec.pair_ok. rewrite (image_iff (fst q) (snd q)). reflexivity. Qed.
    Lemma body_iff l data : Dos3Spec.body d p l data <-> Dos3Spec.body d' p l data.
    Proof.
      pose proof (chain_iff d d' _ _ image_iff p l H1) as CI. unfold Dos3Spec.body.
      assert (Dos3Spec.chain (Dos3Spec.in_image d) d p l ->
        ((exists ps, Dos3Spec.file_pairs d l ps /\ Forall (Dos3Spec.pair_ok d) ps /\ data = concat (map (Dos3Spec.pair_bytes d) ps)) <->
         (exists ps, Dos3Spec.file_pairs d' l ps /\ Forall (Dos3Spec.pair_ok d') ps /\ data = concat (map (Dos3Spec.pair_bytes d') ps)))) as K.
      { intros C. apply Dos3Proofs.chain_path in C. pose proof (path_reach d _ _ _ _ C) as PR. destruct (fpairs_same l PR) as [E1 E2].
        assert (map (Dos3Spec.pair_bytes d) (Dos3Proofs.fpairs d l) = map (Dos3Spec.pair_bytes d') (Dos3Proofs.fpairs d l)) as EB.
        { apply map_ext_in. intros q Hq. unfold Dos3Spec.pair_bytes. destruct ((fst q =? 0) && (snd q =? 0)) eqn:Ez; [reflexivity|].
          destruct (E2 q Hq) as (r & Hr & Hq'). apply (H2 r q (PR r Hr)); [|exact Hq']. intros ->. discriminate Ez. }
        split; intros (ps & F & O' & ->); apply Dos3Proofs.fpairs_unique in F; subst ps.
        - exists (Dos3Proofs.fpairs d' l). split; [apply Dos3Proofs.fpairs_spec|]. rewrite <- E1. split; [|rewrite EB; reflexivity].
          eapply Forall_impl; [|exact O']. intros q. apply pair_ok_same.
        - exists (Dos3Proofs.fpairs d l). split; [apply Dos3Proofs.fpairs_spec|]. rewrite <- E1 in O' |- *. split; [|rewrite EB; reflexivity].
          eapply Forall_impl; [|exact O']. intros q. apply pair_ok_same. }
      split; intros [C X]; (split; [apply CI; exact C|]); apply K; try exact X; [exact C|apply CI; exact C].
    Qed.
  End File.

  Definition alike {A} (r r' : res A) : Prop := r = r' \/ (exists e e', r = Err e /\ r' = Err e').
  Lemma dos_catalog_same l fuel : bytes_ok d -> bytes_ok d' -> Dos3Spec.catalog d l -> (length l < fuel)%nat ->
    Dos3Model.Catalog fuel d = Dos3Model.Catalog fuel d'.
  Proof.
    intros B B' C F. unfold Dos3Model.Catalog. rewrite (Dos3Proofs.ReadCatalog_chain d l fuel B C F).
    rewrite (Dos3Proofs.ReadCatalog_chain d' l fuel B' (proj1 (catalog_iff l) C) F). rewrite (entries_same l C). reflexivity.
  Qed.
  Lemma dos_file_same l n : bytes_ok d -> bytes_ok d' -> Dos3Spec.catalog d l -> (forall q, dos_file d n q -> same_sector d d' q) ->
    forall fuel, (length l < fuel)%nat -> (Dos3Proofs.list_limit < fuel)%nat ->
      alike (returned (Dos3Model.GetFile fuel d n)) (returned (Dos3Model.GetFile fuel d' n)).
  Proof.
    intros B B' C HF fuel F1 F2. pose proof (proj1 (catalog_iff l) C) as C'. pose proof (entries_same l C) as EE.
    pose proof (Dos3Proofs.entries_bytes d l B (Dos3Proofs.catalog_places d l B C)) as FE.
    destruct (Dos3Proofs.find_lookup_dec _ n FE) as [[e L]|N].
    2: { destruct (Dos3Proofs.GetFile_missing d l n fuel B C N F1) as [er ->]. rewrite EE in N.
         destruct (Dos3Proofs.GetFile_missing d' l n fuel B' C' N F1) as [er' ->]. right. exists er, er'. split; reflexivity. }
    rewrite Forall_forall in FE. destruct (FE e (Dos3Proofs.lookup_In _ _ _ L)) as [_ Be].
    assert (forall ls data, Dos3Spec.body d (znth 0 e 0, znth 0 e 1) ls data <-> Dos3Spec.body d' (znth 0 e 0, znth 0 e 1) ls data) as BI.
    { apply body_iff.
      - intros q Hq. apply HF. exists l, e. split; [exact C|]. split; [exact L|]. left. exact Hq.
      - intros r q Hr Hn Hq. apply HF. exists l, e. split; [exact C|]. split; [exact L|]. right. exists r. auto. }
    assert (is_byte (znth 0 e 0) /\ is_byte (znth 0 e 1)) as Bp by (split; apply bytes_ok_znth; exact Be).
    pose proof L as L'. rewrite EE in L'.
    destruct (Dos3Proofs.body_dec d (znth 0 e 0, znth 0 e 1) B Bp) as [(ls & data & Hb & Hl)|Hb].
    - left. rewrite (Dos3Proofs.GetFile_found d l n e ls data fuel B C L Hb F1) by lia.
      rewrite (Dos3Proofs.GetFile_found d' l n e ls data fuel B' C' L' (proj1 (BI ls data) Hb) F1) by lia. reflexivity.
    - destruct (Dos3Proofs.GetFile_no_body d l n e fuel B C L Hb F1 F2) as [er ->].
      assert (forall ls data, ~ Dos3Spec.body d' (znth 0 e 0, znth 0 e 1) ls data) as Hb' by (intros ls data X; apply (Hb ls data), BI, X).
      destruct (Dos3Proofs.GetFile_no_body d' l n e fuel B' C' L' Hb' F1 F2) as [er' ->]. right. exists er, er'. split; reflexivity.
  Qed.
End Dos.

(** ** NakedOS *)
Section Naked.
  Context (d d' : bytes) (Zd : zlen d = 143360) (Zd' : zlen d' = 143360) (M : stored_map d = stored_map d').
  Lemma content_same f : (forall k, In k (owned (stored_map d) f) -> sec d k = sec d' k) -> content d (stored_map d) f = content d' (stored_map d') f.
  Proof. intros H. unfold content. rewrite <- M. rewrite !flat_map_concat_map. f_equal. apply map_ext_in. exact H. Qed.
  Lemma content_same' f : (forall k, In k (owned (stored_map d) f) -> sec d k = sec d' k) -> content d' (stored_map d) f = content d (stored_map d) f.
  Proof. intros H. rewrite (content_same f H), <- M. reflexivity. Qed.
  Lemma naked_disk_same : naked_disk d <-> naked_disk d'.
  Proof. unfold naked_disk. rewrite <- M. split; intros [H1 H2 H3]; split; try assumption. - rewrite <- M. reflexivity. - reflexivity. Qed.
  Context (S' : forall k, naked_part d k -> sec d k = sec d' k).
  Lemma naked_op_same op : NewOperator d = Ok op -> exists op', NewOperator d' = Ok op' /\ op_SM op' = op_SM op /\ op_ST op' = op_ST op.
  Proof.
    unfold NewOperator. rewrite !LoadSectorMap_ok by lia. cbn [rbind]. rewrite <- M. destruct (Verify (stored_map d)) as [[]|e|]; cbn [rbind]; [|discriminate..].
    assert (ReadSymbolTable (stored_map d) d' = ReadSymbolTable (stored_map d) d) as ->.
    { unfold ReadSymbolTable. rewrite !ReadFile_spec by assumption.
      rewrite (content_same' 3) by (intros k Hk; apply S'; left; exact Hk).
      rewrite (content_same' 4) by (intros k Hk; apply S'; right; exact Hk). reflexivity. }
    destruct (ReadSymbolTable (stored_map d) d) as [t|e|]; [..|discriminate]; intros E; injection E as <-; eexists; (split; [reflexivity|]; split; reflexivity).
  Qed.
  Lemma naked_file_same op op' n : NewOperator d = Ok op -> NewOperator d' = Ok op' -> op_SM op' = op_SM op -> op_ST op' = op_ST op ->
    (forall k, naked_file d n k -> sec d k = sec d' k) -> GetFile op n = GetFile op' n.
  Proof.
    intros E E' HM HS HF. destruct (NewOperator_ok d op Zd E) as (_ & Ed & Em & _). destruct (NewOperator_ok d' op' Zd' E') as (_ & Ed' & _).
    assert (st_of op' = st_of op) as ES by (unfold st_of; rewrite HS; reflexivity).
    unfold GetFile. rewrite HM, ES, Ed, Ed'. destruct (FileForName (st_of op) n) as [f|e|] eqn:EF; cbn [rbind]; [|reflexivity..].
    rewrite !ReadFile_spec by assumption. rewrite Em.
    assert (content d' (stored_map d) f = content d (stored_map d) f) as ->; [|reflexivity].
    apply content_same'. intros k Hk. apply HF. exists (st_of op), f. split; [exists op; auto|]. split; [|exact Hk].
    apply FileForName_resolves. exact EF.
  Qed.
End Naked.

(** ** The commands *)
Lemma ls_lines_same short fds : forall w w', w_outroom w = w_outroom w' -> exists w1 w1' r text,
  run (ls_lines short fds) w = (w1, r) /\ run (ls_lines short fds) w' = (w1', r) /\ w_stdout w1 = w_stdout w ++ text /\ w_stdout w1' = w_stdout w' ++ text.
Proof.
  induction fds as [|fd fds IH]; intros w w' Hw.
  - exists w, w', (Ok tt), []. rewrite !app_nil_r. repeat split.
  - cbn [ls_lines run]. unfold sys_stdout. rewrite <- Hw.
    set (x := if fits (w_outroom w) (ls_line short fd) then ls_line short fd else cut (w_outroom w) (ls_line short fd)).
    assert (w_outroom (add_out w x) = w_outroom (add_out w' x)) as Hx by (cbn [add_out w_outroom]; rewrite Hw; reflexivity).
    destruct (IH _ _ Hx) as (w1 & w1' & r & text & R & R' & T & T'). exists w1, w1', r, (x ++ text).
    subst x. destruct (fits (w_outroom w) (ls_line short fd)); (split; [exact R|]; split; [exact R'|]; rewrite T, T'; cbn [add_out w_stdout]; rewrite <- !app_assoc; split; reflexivity).
Qed.
Section Commands.
  Context (iter : list (Z * Subdirectory) -> list (Z * Subdirectory)).
  Notation facs := (DiskOperatorFactories iter).
  Context (fuel : nat) (order system img : bytes) (c c' o : bytes) (op op' : AnyOp) (w w' : world).
  Context (Hi : input w img c) (Hi' : input w' img c') (Hw : w_outroom w = w_outroom w').
  Context (Ho : OpenImage c (image_name img) order system (facs fuel) = Ok (op, o)).
  Context (Ho' : OpenImage c' (image_name img) order system (facs fuel) = Ok (op', o)).
  Lemma ls_same short dir : Op_HasSubdirs op = Op_HasSubdirs op' -> Op_Catalog iter fuel op dir = Op_Catalog iter fuel op' dir ->
    same_show (LsCmd_Run iter fuel order system short img dir) w w'.
  Proof.
    intros H1 H2. destruct (open_run_ok iter fuel _ _ _ _ _ _ _ Hi Ho) as (w1 & Er & _ & Hso & _ & Hor & _).
    destruct (open_run_ok iter fuel _ _ _ _ _ _ _ Hi' Ho') as (w1' & Er' & _ & Hso' & _ & Hor' & _).
    assert (w_outroom w1 = w_outroom w1') as Hw1 by congruence.
    unfold same_show, main_run, LsCmd_Run. rewrite !run_pbind, Er, Er'. rewrite <- H1.
    destruct (negb (beq dir []) && negb (Op_HasSubdirs op)).
    { exists w1, w1', 1, []. rewrite !app_nil_r. repeat split; assumption. }
    rewrite !run_pbind. unfold plift. cbn [run]. rewrite <- H2. destruct (Op_Catalog iter fuel op dir) as [fds|e|].
    - destruct (ls_lines_same short fds w1 w1' Hw1) as (w2 & w2' & r & text & -> & -> & T & T').
      exists w2, w2', (main_status r), text. rewrite T, T', Hso, Hso'. repeat split.
    - exists w1, w1', 1, []. rewrite !app_nil_r. repeat split; assumption.
    - exists w1, w1', 2, []. rewrite !app_nil_r. repeat split; assumption.
  Qed.
  Lemma dump_same n : alike (Op_GetFile fuel op n) (Op_GetFile fuel op' n) -> same_show (DumpCmd_Run iter fuel order system img n) w w'.
  Proof.
    intros H. destruct (open_run_ok iter fuel _ _ _ _ _ _ _ Hi Ho) as (w1 & Er & _ & Hso & _ & Hor & _).
    destruct (open_run_ok iter fuel _ _ _ _ _ _ _ Hi' Ho') as (w1' & Er' & _ & Hso' & _ & Hor' & _).
    assert (w_outroom w1 = w_outroom w1') as Hw1 by congruence.
    unfold same_show, main_run, DumpCmd_Run. rewrite !run_pbind, Er, Er'. rewrite !run_pbind. unfold plift. cbn [run].
    destruct H as [<-|(e & e' & -> & ->)].
    2: { exists w1, w1', 1, []. rewrite !app_nil_r. repeat split; assumption. }
    destruct (Op_GetFile fuel op n) as [i|e|].
    - cbn [run]. unfold sys_stdout. rewrite <- Hw1. destruct (fits (w_outroom w1) (fi_data i)).
      + exists (add_out w1 (fi_data i)), (add_out w1' (fi_data i)), 0, (fi_data i). cbn [add_out w_stdout]. rewrite Hso, Hso'. repeat split.
      + exists (add_out w1 (cut (w_outroom w1) (fi_data i))), (add_out w1' (cut (w_outroom w1) (fi_data i))), 1, (cut (w_outroom w1) (fi_data i)).
        cbn [add_out w_stdout]. rewrite Hso, Hso'. repeat split.
    - exists w1, w1', 1, []. rewrite !app_nil_r. repeat split; assumption.
    - exists w1, w1', 2, []. rewrite !app_nil_r. repeat split; assumption.
  Qed.
End Commands.

(** ** The system of the disk *)
Lemma reads_len c o sys d : reads_as c o sys d -> zlen c = 143360.
Proof. intros [? R _|? ? R _ _ _|? ? ? R _ _ _ _ _]; apply R. Qed.
Lemma seen_dos img order c d o : seen_as img order c (s2b "dos3") d o -> dos_disk d.
Proof.
  intros H. remember (s2b "dos3") as sys eqn:E. destruct H as [pre o rest sys d _ _ _ _ Hra|]; [|discriminate E].
  destruct Hra as [d _ D|d0 d _ _ _ _|d0 d1 d _ _ _ _ _ _]; [exact D|discriminate E..].
Qed.
Lemma seen_naked img order c d o : zlen c = 143360 -> seen_as img order c (s2b "nakedos") d o ->
  naked_disk d /\ forall d0, reordered c o (s2b "do") d0 -> not_dos d0.
Proof.
  intros Hc H. remember (s2b "nakedos") as sys eqn:E. destruct H as [pre o rest sys d _ _ _ _ Hra|]; [|discriminate E].
  destruct Hra as [d _ _|d0 d R N _ D|d0 d1 d _ _ _ _ _ _]; [discriminate E| |discriminate E]. split; [exact D|].
  intros x Rx. rewrite (reordered_fun _ _ _ _ _ Rx R). exact N.
Qed.
Lemma seen_prodos img order c d o : zlen c = 143360 -> seen_as img order c (s2b "prodos") d o ->
  prodos_disk d /\ (forall d0, reordered c o (s2b "do") d0 -> not_dos d0) /\ (forall d1, reordered c o (s2b "raw") d1 -> ~ naked_disk d1).
Proof.
  intros Hc H. remember (s2b "prodos") as sys eqn:E. destruct H as [pre o rest sys d _ _ _ _ Hra|N _ _ _ _ _]; [|contradiction (N Hc)].
  destruct Hra as [d _ _|d0 d R N _ D|d0 d1 d R0 N0 R1 N1 _ D]; [discriminate E..|]. split; [exact D|]. split.
  - intros x Rx. rewrite (reordered_fun _ _ _ _ _ Rx R0). exact N0.
  - intros x Rx. rewrite (reordered_fun _ _ _ _ _ Rx R1). exact N1.
Qed.
Lemma seen_same img order c c' sys d d' o : seen_as img order c sys d o -> (zlen c = 143360 -> first_order img order o) -> bytes_ok c -> bytes_ok c' ->
  agree c c' o sys d d' -> seen_as img order c' sys d' o.
Proof.
  intros Hs Hf B B' A.
  assert (zlen c = 143360 -> reads_as c' o sys d' -> seen_as img order c' sys d' o) as Fl.
  { intros Hc R. destruct (Hf Hc) as [rest Hca]. apply (sa_floppy img order c' [] o rest sys d'); try assumption; [|constructor]. exact (reads_len _ _ _ _ R). }
  destruct A as [d d' R R' P|d0 d0' d d' R0 R0' P0 R R' M P|d0 d0' d1 d1' d d' R0 R0' P0 R1 R1' M R R' P|N Z' P].
  - apply Fl; [apply R|]. constructor; [exact R'|].
    destruct (seen_dos _ _ _ _ _ Hs) as [l C].
    exists l. apply (catalog_iff d d'); [destruct R as (_ & -> & _); destruct R' as (_ & -> & _); reflexivity|exact P|exact C].
  - apply Fl; [apply R|].
    destruct (seen_naked _ _ _ _ _ (proj1 R) Hs) as [D ND]. specialize (ND _ R0).
    apply (ra_naked c' o d0' d'); [exact R0'| |exact R'|].
    + apply (not_dos_same d0 d0'); [destruct R0 as (_ & -> & _); destruct R0' as (_ & -> & _); reflexivity|exact P0|exact ND].
    + exact (proj1 (naked_disk_same d d' (proj1 (proj2 R)) (proj1 (proj2 R')) M) D).
  - apply Fl; [apply R|].
    destruct (seen_prodos _ _ _ _ _ (proj1 R) Hs) as (D & ND & NN). specialize (ND _ R0). specialize (NN _ R1).
    apply (ra_prodos c' o d0' d1' d'); [exact R0'| |exact R1'| |exact R'|].
    + apply (not_dos_same d0 d0'); [destruct R0 as (_ & -> & _); destruct R0' as (_ & -> & _); reflexivity|exact P0|exact ND].
    + intros X. exact (NN (proj2 (naked_disk_same d1 d1' (proj1 (proj2 R1)) (proj1 (proj2 R1')) M) X)).
    + apply (prodos_disk_same d d'); [destruct R as (_ & -> & _); destruct R' as (_ & -> & _); reflexivity|exact P|exact (reordered_bytes _ _ _ _ R' B')|exact D].
  - remember (s2b "prodos") as sys eqn:E. destruct Hs as [pre o rest sys d2 Hc _ Hca Hpre Hra|Hc Hc2 Hx Hm Hl Ho]; [contradiction (N Hc)|].
    constructor; try rewrite Z'; assumption.
Qed.

Lemma op_dos d op : op_for (s2b "dos3") d op -> op = ODos3 d.
Proof. intros H. remember (s2b "dos3") as sys eqn:E. destruct H; [reflexivity|discriminate E..]. Qed.
Lemma op_naked d op : op_for (s2b "nakedos") d op -> exists o, NewOperator d = Ok o /\ op = ONaked o.
Proof. intros H. remember (s2b "nakedos") as sys eqn:E. destruct H as [|d o H|]; [discriminate E|exists o; auto|discriminate E]. Qed.
Lemma op_prodos d op : op_for (s2b "prodos") d op -> op = OProdos d.
Proof. intros H. remember (s2b "prodos") as sys eqn:E. destruct H; [discriminate E..|reflexivity]. Qed.

Lemma sf_dos_inv d d' n : same_file d d' n (s2b "dos3") -> forall q, dos_file d n q -> same_sector d d' q.
Proof. intros H. remember (s2b "dos3") as sys eqn:E. destruct H as [H|H|]; [exact H|discriminate E..]. Qed.
Lemma sf_naked_inv d d' n : same_file d d' n (s2b "nakedos") -> forall k, naked_file d n k -> sec d k = sec d' k.
Proof. intros H. remember (s2b "nakedos") as sys eqn:E. destruct H as [H|H|]; [discriminate E|exact H|discriminate E]. Qed.

(** ** The theorem *)
Section Read.
  Context (iter : list (Z * Subdirectory) -> list (Z * Subdirectory)).
  Lemma read_same img order system c c' sys d d' o w w' :
    ProdosSpec.an_order iter -> seen_as img order c sys d o -> (zlen c = 143360 -> first_order img order o) -> bytes_ok c -> bytes_ok c' ->
    agree c c' o sys d d' -> (system = s2b "auto" \/ system = sys) -> input w img c -> input w' img c' -> w_outroom w = w_outroom w' ->
    eventually (fun fuel =>
      (forall short dir, same_show (LsCmd_Run iter fuel order system short img dir) w w') /\
      (forall n, same_file d d' n sys -> same_show (DumpCmd_Run iter fuel order system img n) w w')).
  Proof.
    intros Hi Hs Hf B B' A Hsys Hin Hin' Hw. pose proof (seen_same _ _ _ _ _ _ _ _ Hs Hf B B' A) as Hs'.
    pose proof (eventually_and _ _ (opens iter _ _ _ _ _ _ _ Hi Hs Hsys) (opens iter _ _ _ _ _ _ _ Hi Hs' Hsys)) as EO.
    destruct A as [d d' R R' P|d0 d0' d d' R0 R0' P0 R R' M P|d0 d0' d1 d1' d d' R0 R0' P0 R1 R1' M R R' P|N Z' P].
    - destruct (seen_dos _ _ _ _ _ Hs) as [l C].
      assert (zlen d' = zlen d) as Z' by (destruct R as (_ & -> & _); destruct R' as (_ & -> & _); reflexivity).
      pose proof (reordered_bytes _ _ _ _ R B) as Bd. pose proof (reordered_bytes _ _ _ _ R' B') as Bd'.
      assert (eventually (fun k => (length l < k)%nat /\ (Dos3Proofs.list_limit < k)%nat)) as EL.
      { exists (S (length l) + S Dos3Proofs.list_limit)%nat. intros k Hk. split; lia. }
      eapply eventually_impl; [|exact (eventually_and _ _ EO EL)]. intros k [[(op & Ho & Hop) (op' & Ho' & Hop')] [F1 F2]]. cbv beta in *.
      rewrite (op_dos _ _ Hop) in Ho. rewrite (op_dos _ _ Hop') in Ho'.
      split.
      + intros short dir. apply (ls_same iter k order system img c c' o (ODos3 d) (ODos3 d') w w' Hin Hin' Hw Ho Ho'); [reflexivity|].
        cbn [Op_Catalog]. rewrite (dos_catalog_same d d' Z' P l k Bd Bd' C F1). reflexivity.
      + intros n Hn. apply (dump_same iter k order system img c c' o (ODos3 d) (ODos3 d') w w' Hin Hin' Hw Ho Ho').
        cbn [Op_GetFile].
        pose proof (sf_dos_inv _ _ _ Hn) as HF.
        exact (dos_file_same d d' Z' P l n Bd Bd' C HF k F1 F2).
    - assert (zlen d = 143360) as Zd by apply R. assert (zlen d' = 143360) as Zd' by apply R'.
      eapply eventually_impl; [|exact EO]. intros k [(op & Ho & Hop) (op' & Ho' & Hop')]. cbv beta in *.
      destruct (op_naked _ _ Hop) as (op1 & En & ->). destruct (op_naked _ _ Hop') as (op1' & En' & ->).
      destruct (naked_op_same d d' Zd Zd' M P op1 En) as (op2 & En2 & HM & HS). assert (op2 = op1') as -> by congruence.
      split.
      + intros short dir. apply (ls_same iter k order system img c c' o (ONaked op1) (ONaked op1') w w' Hin Hin' Hw Ho Ho'); [reflexivity|].
        cbn [Op_Catalog]. unfold SupermonModel.Catalog. assert (st_of op1' = st_of op1) as -> by (unfold st_of; rewrite HS; reflexivity). rewrite HM. reflexivity.
      + intros n Hn. apply (dump_same iter k order system img c c' o (ONaked op1) (ONaked op1') w w' Hin Hin' Hw Ho Ho').
        left. cbn [Op_GetFile].
        pose proof (sf_naked_inv _ _ _ Hn) as HF.
        exact (naked_file_same d d' Zd Zd' M op1 op1' n En En' HM HS HF).
    - assert (zlen d' = zlen d) as Z' by (destruct R as (_ & -> & _); destruct R' as (_ & -> & _); reflexivity).
      pose proof (reordered_bytes _ _ _ _ R B) as Bd.
      eapply eventually_impl; [|exact EO]. intros k [(op & Ho & Hop) (op' & Ho' & Hop')]. cbv beta in *.
      rewrite (op_prodos _ _ Hop) in Ho. rewrite (op_prodos _ _ Hop') in Ho'.
      split.
      + intros short dir. apply (ls_same iter k order system img c c' o (OProdos d) (OProdos d') w w' Hin Hin' Hw Ho Ho'); [reflexivity|].
        cbn [Op_Catalog]. rewrite (Catalog_same d d' Bd Z' P iter k dir). reflexivity.
      + intros n Hn. apply (dump_same iter k order system img c c' o (OProdos d) (OProdos d') w w' Hin Hin' Hw Ho Ho'). left. reflexivity.
    - eapply eventually_impl; [|exact EO]. intros k [(op & Ho & Hop) (op' & Ho' & Hop')]. cbv beta in *.
      rewrite (op_prodos _ _ Hop) in Ho. rewrite (op_prodos _ _ Hop') in Ho'.
      split.
      + intros short dir. apply (ls_same iter k order system img c c' o (OProdos c) (OProdos c') w w' Hin Hin' Hw Ho Ho'); [reflexivity|].
        cbn [Op_Catalog]. rewrite (Catalog_same c c' B Z' P iter k dir). reflexivity.
      + intros n Hn. apply (dump_same iter k order system img c c' o (OProdos c) (OProdos c') w w' Hin Hin' Hw Ho Ho'). left. reflexivity.
  Qed.
End Read.
