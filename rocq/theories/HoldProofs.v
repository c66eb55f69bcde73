(** HoldProofs.v -- the operator and the commands on two disks that hold the same files. *)
From Coq Require Import ZifyBool ZifyNat.
From Verif Require Import GoBase GoLemmas TypesModel DiskModel DiskSpec DiskProofs.
From Verif Require Import SupermonModel SupermonSpec SupermonTableSpec SupermonStoreSpec SupermonProofs SupermonLinkProofs SupermonSymProofs SupermonTabProofs SupermonOpProofs SupermonNameProofs SupermonNamedProofs SupermonFinalProofs.
From Verif Require Import ProdosModel CmdModel CmdSpec CmdProofs CmdStmtProofs MainModel NakedCmdSpec NakedCmdProofs NakedOpenProofs SessionSpec ShelfSpec LocalSpec LocalProofs TwinSpec TwinProofs TwinCmdProofs BackupSpec BackupProofs HoldSpec.
Ltac Zify.zify_post_hook ::= Z.div_mod_to_equations.
Local Opaque zrange zeros sub.

(** ** Disks with their maps *)
Record near (s s' : bytes * bytes) : Prop := {
  nr_fl : floppy (fst s) (snd s);
  nr_fl' : floppy (fst s') (snd s');
  nr_same : forall f, legal f -> content (fst s') (snd s') f = content (fst s) (snd s) f;
  nr_free : zlen (owned (snd s') FREE) = zlen (owned (snd s) FREE)
}.
Lemma near_used s s' f : near s s' -> legal f -> zlen (owned (snd s') f) = zlen (owned (snd s) f).
Proof.
  intros [F F' C _] Hf. pose proof (f_equal zlen (C f Hf)) as E. rewrite !zlen_content in E by (apply (fl_len _ _ F) || apply (fl_len _ _ F')). lia.
Qed.
Lemma near_nil s s' f : near s s' -> legal f -> (owned (snd s') f = [] <-> owned (snd s) f = []).
Proof.
  intros N Hf. pose proof (near_used _ _ _ N Hf) as E. split; intros H; rewrite H in E; apply zlen_zero_nil; rewrite zlen_nil in E; lia.
Qed.
Definition nears {A} (m : st (bytes * bytes) A) : Prop :=
  forall s s', near s s' -> exists t t' r, m s = (t, r) /\ m s' = (t', r) /\ near t t'.
Lemma write_nears f c ow : legal f -> c <> [] -> nears (WriteFile f c ow).
Proof.
  intros Hf Hc [d sm] [d' sm'] N. pose proof N as [F F' C R]. cbn [fst snd] in *.
  pose proof (near_used _ _ f N Hf) as U. pose proof (near_nil _ _ f N Hf) as V. cbn [fst snd] in U, V.
  destruct (WriteFile_cases f c ow d sm F Hf Hc) as [(H & E)|[(H & Ho & How & E)|(H & How & e & em & E & G & G1 & G2 & G3 & G4)]];
  destruct (WriteFile_cases f c ow d' sm' F' Hf Hc) as [(H' & E')|[(H' & Ho' & How' & E')|(H' & How' & e' & em' & E' & K & K1 & K2 & K3 & K4)]];
    rewrite ?U, ?R in *; try lia; rewrite E, E'.
  - do 3 eexists. split; [reflexivity|]. split; [reflexivity|exact N].
  - do 3 eexists. split; [reflexivity|]. split; [reflexivity|exact N].
  - exfalso. assert (owned sm' f <> []) as X by (intros X; exact (Ho (proj1 V X))). rewrite (How' X) in How. discriminate How.
  - exfalso. assert (owned sm f <> []) as X by (intros X; exact (Ho' (proj2 V X))). rewrite (How X) in How'. discriminate How'.
  - do 3 eexists. split; [reflexivity|]. split; [reflexivity|]. split; cbn [fst snd]; [exact G|exact K| |lia].
    intros g Hg. destruct (Z.eq_dec g f) as [->|Hn]; [congruence|]. rewrite (proj2 (G4 g Hn Hg)), (proj2 (K4 g Hn Hg)). exact (C g Hg).
Qed.
Lemma delete_nears d sm d' sm' f : near (d, sm) (d', sm') -> legal f ->
  exists e e', Persist (SMDelete sm f) d = (e, Ok tt) /\ Persist (SMDelete sm' f) d' = (e', Ok tt) /\ near (e, SMDelete sm f) (e', SMDelete sm' f).
Proof.
  intros N Hf. pose proof N as [F F' C R]. pose proof (near_used _ _ f N Hf) as U. cbn [fst snd] in *.
  destruct (Delete_disk d sm f F Hf) as (E & G & G1 & _ & G2 & G3). destruct (Delete_disk d' sm' f F' Hf) as (E' & K & K1 & _ & K2 & K3).
  exists (upd d 2512 (SMDelete sm f)), (upd d' 2512 (SMDelete sm' f)). split; [exact E|]. split; [exact E'|].
  split; cbn [fst snd]; [exact G|exact K| |lia].
  intros g Hg. destruct (Z.eq_dec g f) as [->|Hn]; [congruence|]. rewrite (proj2 (G2 g Hn Hg)), (proj2 (K2 g Hn Hg)). exact (C g Hg).
Qed.
Lemma untag_nears f c : legal f -> c <> [] -> nears (fun s => let '(s', r) := WriteFile f c true s in (s', untag r)).
Proof.
  intros Hf Hc s s' N. destruct (write_nears f c true Hf Hc s s' N) as (t & t' & r & E & E' & K). rewrite E, E'. do 3 eexists. split; [reflexivity|]. split; [reflexivity|exact K].
Qed.
Lemma bind_nears {A B} (m : st (bytes * bytes) A) (k : A -> st (bytes * bytes) B) : nears m -> (forall a, nears (k a)) -> nears (sbind m k).
Proof.
  intros Hm Hk s s' N. destruct (Hm s s' N) as (t & t' & r & E & E' & K). unfold sbind. rewrite E, E'. destruct r as [a|e|].
  - exact (Hk a t t' K).
  - do 3 eexists. split; [reflexivity|]. split; [reflexivity|exact K].
  - do 3 eexists. split; [reflexivity|]. split; [reflexivity|exact K].
Qed.
Lemma ret_nears {A} (a : A) : nears (sret a).
Proof. intros s s' N. do 3 eexists. split; [reflexivity|]. split; [reflexivity|exact N]. Qed.
Lemma table_nears t : zlen t <= 819 -> nears (WriteSymbolTable t).
Proof.
  intros L s s' N. unfold WriteSymbolTable. destruct (fill_tables_any t 0 (zeros 0x1000) (zeros 0x1000)) as [(e & E)|(b1 & b2 & E & L1 & L2)];
    [lia|lia|reflexivity|reflexivity| |]; rewrite E.
  - do 3 eexists. split; [reflexivity|]. split; [reflexivity|exact N].
  - assert (b1 <> []) as H1 by (intros ->; rewrite zlen_nil in L1; lia). assert (b2 <> []) as H2 by (intros ->; rewrite zlen_nil in L2; lia).
    apply (bind_nears _ _ (untag_nears 3 b1 ltac:(unfold legal; lia) H1)); [|exact N]. intros _.
    apply (bind_nears _ _ (untag_nears 4 b2 ltac:(unfold legal; lia) H2)). intros _. apply ret_nears.
Qed.

(** ** The operator *)
Definition op_near (o o' : Operator) : Prop :=
  op_ST o' = op_ST o /\ near (pair_of o) (pair_of o') /\ (forall t, op_ST o = Some t -> zlen t = 819).
Definition op_nears {A} (m : st Operator A) : Prop :=
  forall o o', op_near o o' -> exists u u' r, m o = (u, r) /\ m o' = (u', r) /\ op_near u u'.
Lemma op_near_ok o o' : op_near o o' -> op_ok o /\ op_ok o'.
Proof. intros (E & [F F' _ _] & L). split; split; [exact F|exact L|exact F'|rewrite E; exact L]. Qed.
Lemma near_stay {A} o o' (r : res A) : op_near o o' -> exists u u' r', (o, r) = (u, r') /\ (o', r) = (u', r') /\ op_near u u'.
Proof. intros R. exists o, o', r. split; [reflexivity|]. split; [reflexivity|exact R]. Qed.
Lemma on_disk_nears {A} (m : st (bytes * bytes) A) : nears m -> op_nears (on_disk m).
Proof.
  intros H o o' (ES & N & L). destruct (H _ _ N) as ([e sm] & [e' sm'] & r & E & E' & K). unfold on_disk. unfold pair_of in E, E'. rewrite E, E'.
  do 3 eexists. split; [reflexivity|]. split; [reflexivity|]. split; [exact ES|]. split; [exact K|exact L].
Qed.
Lemma op_bind_nears {A B} (m : st Operator A) (k : A -> st Operator B) : op_nears m -> (forall a, op_nears (k a)) -> op_nears (sbind m k).
Proof.
  intros Hm Hk s s' R. destruct (Hm s s' R) as (t & t' & r & E & E' & K). unfold sbind. rewrite E, E'. destruct r as [a|e|].
  - exact (Hk a t t' K).
  - do 3 eexists. split; [reflexivity|]. split; [reflexivity|exact K].
  - do 3 eexists. split; [reflexivity|]. split; [reflexivity|exact K].
Qed.
Lemma op_ret_nears {A} (a : A) : op_nears (sret a).
Proof. intros o o' R. apply near_stay. exact R. Qed.
Lemma near_st o o' : op_near o o' -> st_of o' = st_of o.
Proof. intros [E _]. unfold st_of. rewrite E. reflexivity. Qed.
Lemma near_first s s' : near s s' -> FirstFreeFile (snd s') = FirstFreeFile (snd s).
Proof.
  intros N. destruct (FirstFreeFile_spec (snd s)) as [(A1 & A2 & A3)|(A1 & A2)]; destruct (FirstFreeFile_spec (snd s')) as [(B1 & B2 & B3)|(B1 & B2)].
  - pose proof A1 as A0. pose proof B1 as B0. unfold legal in A1, B1.
    destruct (Z.lt_trichotomy (FirstFreeFile (snd s')) (FirstFreeFile (snd s))) as [H|[H|H]]; [|exact H|].
    + destruct (A3 _ ltac:(split; [exact (proj1 B1)|exact H]) (proj1 (near_nil _ _ _ N B0) B2)).
    + destruct (B3 _ ltac:(split; [exact (proj1 A1)|exact H]) (proj2 (near_nil _ _ _ N A0) A2)).
  - destruct (B2 _ A1 (proj2 (near_nil _ _ _ N A1) A2)).
  - destruct (A2 _ B1 (proj1 (near_nil _ _ _ N B1) B2)).
  - congruence.
Qed.
Lemma compound_legal t s nf mf sy : FilesForCompoundName t s = Ok (nf, mf, sy) -> nf = 0 \/ legal nf.
Proof.
  unfold FilesForCompoundName. destruct (split_colon s) as [|p0 [|p1 [|p2 l]]].
  - discriminate.
  - destruct (parseAddress_cases s) as [(f & Hn & E)|[Hn E]]; rewrite E.
    + destruct Hn as [Hf _]. unfold legal in *. replace (f =? 0) with false by lia. cbn [negb]. intros H; inversion H; subst. right; lia.
    + cbn [Z.eqb negb]. destruct (FileForName_spec t s) as [(f & E2 & _ & Hl)|[E2 _]]; rewrite E2; intros H; inversion H; subst; [right; exact Hl|left; reflexivity].
  - destruct (parseAddress_cases p0) as [(f & Hn & E)|[Hn E]]; rewrite E.
    + destruct Hn as [Hf _]. pose proof Hf as Hf'. unfold legal in Hf. replace (f =? 0) with false by lia.
      destruct (negb (parseAddressFilename p1 =? 0)); [discriminate|].
      destruct (FileForName_spec t p1) as [(g & E2 & _ & Hl)|[E2 _]]; rewrite E2; intros H; inversion H; subst; right; exact Hf'.
    + cbn [Z.eqb]. discriminate.
  - discriminate.
Qed.
Lemma put_nears i ow : fi_data i <> [] -> op_nears (PutFile i ow).
Proof.
  intros Hne o o' R. pose proof (near_st _ _ R) as ES. pose proof (near_first _ _ (proj1 (proj2 R))) as EF. unfold pair_of in EF. cbn [snd] in EF.
  unfold PutFile. rewrite ES, EF, (proj1 R). cbv zeta.
  destruct (negb _); [apply near_stay; exact R|]. destruct (negb _); [apply near_stay; exact R|].
  destruct (FilesForCompoundName (st_of o) (d_name (fi_desc_ i))) as [[[n f] y]|e|] eqn:EN; [|apply near_stay; exact R..].
  destruct (if beq y [] then _ else _) as [u|e|] eqn:EC; [|apply near_stay; exact R..].
  remember (if n =? 0 then _ else n) as num eqn:En. destruct (Z.eqb_spec num 0) as [E0|E0]; [apply near_stay; exact R|].
  assert (Hl : legal num).
  { rewrite En in *. destruct (Z.eqb_spec n 0); [|destruct (compound_legal _ _ _ _ _ EN) as [X|X]; [contradiction (n0 X)|exact X]].
    destruct (FirstFreeFile_spec (op_SM o)) as [[H _]|[H _]]; [exact H|contradiction (E0 H)]. }
  clear En ES EF. assert (HT : beq y [] = false -> op_ST o <> None) by (intros Hy; rewrite Hy in EC; destruct (op_ST o); [discriminate|discriminate EC]). clear EC EN.
  (* only a disk with a table gets so far *)
  destruct (on_disk_nears _ (write_nears num (fi_data i) ow Hl Hne) o o' R) as (v & v' & r & E & E' & K).
  assert (HV : op_ST v = op_ST o) by (unfold on_disk in E; destruct (WriteFile num (fi_data i) ow (op_data o, op_SM o)) as [[e sm] r0]; injection E as <- _; reflexivity).
  unfold sbind at 1. unfold sbind at 2. rewrite E, E'. destruct r as [ex|e|].
  2,3: do 3 eexists; (split; [reflexivity|]; split; [reflexivity|exact K]).
  destruct (negb (f =? num) && negb (beq y [])) eqn:EA; [|do 3 eexists; (split; [reflexivity|]; split; [reflexivity|exact K])].
  apply andb_prop in EA as [_ EA]. destruct (beq y []); [discriminate EA|]. specialize (HT eq_refl). rewrite <- HV in HT.
  rewrite (near_st _ _ K). pose proof (zlen_AddSymbol (st_of v) y (u16 (57088 + num))) as LA.
  destruct (AddSymbol (st_of v) y (u16 (57088 + num))) as [t1 r1]. cbn [fst] in LA.
  assert (L1 : zlen t1 = 819).
  { rewrite LA. unfold st_of. destruct K as (_ & _ & KL). destruct (op_ST v) as [t|]; [exact (KL t eq_refl)|contradiction HT; reflexivity]. }
  assert (R1 : op_near (Op (op_data v) (op_SM v) (Some t1)) (Op (op_data v') (op_SM v') (Some t1))).
  { split; [reflexivity|]. split; [exact (proj1 (proj2 K))|]. intros t X. injection X as <-. exact L1. }
  cbv zeta. destruct r1 as [[]|e|].
  2,3: do 3 eexists; (split; [reflexivity|]; split; [reflexivity|exact R1]).
  exact (op_bind_nears _ _ (on_disk_nears _ (table_nears t1 ltac:(lia))) (fun _ => op_ret_nears ex) _ _ R1).
Qed.
Lemma rm_nears n : op_nears (Delete n).
Proof.
  intros o o' R. pose proof (near_st _ _ R) as ES. pose proof R as (EQ & N & L). unfold Delete. rewrite ES, EQ. cbv zeta.
  destruct (FileForName_spec (st_of o) n) as [(f & E & _ & Hf)|[E _]]; rewrite E; [|apply near_stay; exact R].
  unfold pair_of in N. destruct (delete_nears _ _ _ _ f N Hf) as (e & e' & P & P' & K). rewrite P, P'.
  assert (zlen (SectorsForFile (op_SM o') f) = zlen (SectorsForFile (op_SM o) f)) as ->.
  { rewrite !SectorsForFile_owned, !zlen_map. exact (near_used _ _ f N Hf). }
  remember (0 <? zlen (SectorsForFile (op_SM o) f)) as ex eqn:Ex.
  destruct (op_ST o) as [t|] eqn:Et.
  2: do 3 eexists; (split; [reflexivity|]; split; [reflexivity|]; split; [reflexivity|]; split; [exact K|discriminate]).
  pose proof (zlen_DeleteSymbol t n) as LD. rewrite (L t eq_refl) in LD. destruct (DeleteSymbol t n) as [t1 ch]. cbn [fst] in LD.
  assert (R1 : op_near (Op e (SMDelete (op_SM o) f) (Some t1)) (Op e' (SMDelete (op_SM o') f) (Some t1))).
  { split; [reflexivity|]. split; [exact K|]. intros t0 X. injection X as <-. exact LD. }
  destruct ch; [|do 3 eexists; (split; [reflexivity|]; split; [reflexivity|exact R1])].
  exact (op_bind_nears _ _ (on_disk_nears _ (table_nears t1 ltac:(lia))) (fun _ => op_ret_nears ex) _ _ R1).
Qed.
Lemma near_catalog o o' : op_near o o' -> SupermonModel.Catalog o' = SupermonModel.Catalog o.
Proof.
  intros R. rewrite !Catalog_spec, (near_st _ _ R). apply (f_equal Ok). pose proof (proj1 (proj2 R)) as N. unfold pair_of in N.
  assert (HI : forall f, In f (map (fun k => k + 1) (zrange 253)) -> zlen (owned (op_SM o') f) = zlen (owned (op_SM o) f)).
  { intros f H. apply (near_used _ _ f N). apply in_map_iff in H as (k & <- & Hk). apply In_zrange in Hk. unfold legal. lia. }
  rewrite (filter_ext_in (fun f => negb (zlen (owned (op_SM o') f) =? 0)) (fun f => negb (zlen (owned (op_SM o) f) =? 0))) by (intros f H; rewrite (HI f H); reflexivity).
  apply map_ext_in. intros f H. apply filter_In in H as [H _]. rewrite (HI f H). reflexivity.
Qed.
Lemma near_get o o' n : op_near o o' -> GetFile o' n = GetFile o n.
Proof.
  intros R. unfold GetFile. rewrite (near_st _ _ R). destruct (FileForName (st_of o) n) as [f|e|] eqn:EF; [|reflexivity..]. cbn [rbind].
  apply FileForName_resolves, resolves_legal in EF. destruct R as (_ & [F F' C _] & _). unfold pair_of in *. cbn [fst snd] in *.
  rewrite !ReadFile_spec by (apply (fl_len _ _ F) || apply (fl_len _ _ F')). rewrite (C f EF). reflexivity.
Qed.
