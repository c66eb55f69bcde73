(** TwinProofs.v -- the operator on two disks, step by step. *)
From Coq Require Import ZifyBool ZifyNat.
From Verif Require Import GoBase GoLemmas TypesModel DiskModel DiskSpec DiskProofs.
From Verif Require Import SupermonModel SupermonSpec SupermonTableSpec SupermonProofs SupermonOpProofs.
From Verif Require Import CmdModel CmdSpec NakedCmdSpec LocalSpec TwinSpec.
Ltac Zify.zify_post_hook ::= Z.div_mod_to_equations.
Local Opaque zrange zeros sub.

(** ** Two (disk, map) pairs with the same map, before and after *)
Record lock (s s' t t' : bytes * bytes) : Prop := {
  lk_map : snd t' = snd t;
  lk_size : zlen (fst t) = 143360 /\ zlen (fst t') = 143360 /\ zlen (snd t) = 560;
  lk_step : in_step (fst s) (fst s') (fst t) (fst t');
  lk_owner : forall k, 0 <= k < 560 -> znth 0 (snd t) k = znth 0 (snd s) k \/ znth 0 (snd t) k = FREE \/ sec (fst t) k = sec (fst t') k
}.
Record ready (s s' : bytes * bytes) : Prop := {
  rd_map : snd s' = snd s;
  rd_size : zlen (fst s) = 143360 /\ zlen (fst s') = 143360 /\ zlen (snd s) = 560
}.
Lemma lock_ready s s' t t' : lock s s' t t' -> ready t t'.
Proof. intros [M S _ _]. split; assumption. Qed.
Lemma in_step_refl d d' : in_step d d' d d'.
Proof. intros p _. right. split; reflexivity. Qed.
Lemma in_step_trans d d' e e' f f' : in_step d d' e e' -> in_step e e' f f' -> in_step d d' f f'.
Proof.
  intros H K p Hp. destruct (K p Hp) as [E|[E1 E2]]; [left; exact E|]. rewrite E1, E2. exact (H p Hp).
Qed.
Lemma sec_ext d d' k : zlen d = 143360 -> zlen d' = 143360 -> 0 <= k < 560 ->
  (forall p, 256 * k <= p < 256 * k + 256 -> znth 0 d p = znth 0 d' p) <-> sec d k = sec d' k.
Proof.
  intros L L' Hk. unfold sec. split; intros H.
  - apply (znth_ext 0); [rewrite !zlen_sub by lia; reflexivity|]. intros i Hi. rewrite zlen_sub in Hi by lia. rewrite !znth_sub by lia. apply H. lia.
  - intros p Hp. replace p with (256 * k + (p - 256 * k)) by lia. rewrite <- (znth_sub 0 d (256 * k) (256 * k + 256) (p - 256 * k)) by lia.
    rewrite <- (znth_sub 0 d' (256 * k) (256 * k + 256) (p - 256 * k)) by lia. rewrite H. reflexivity.
Qed.
Lemma in_step_sec d d' e e' k : zlen d = 143360 -> zlen d' = 143360 -> zlen e = 143360 -> zlen e' = 143360 -> 0 <= k < 560 ->
  in_step d d' e e' -> sec d k = sec d' k -> sec e k = sec e' k.
Proof.
  intros L L' M M' Hk A H. apply sec_ext; [assumption..|]. intros p Hp. destruct (A p ltac:(lia)) as [E|[E1 E2]]; [exact E|].
  rewrite E1, E2. exact (proj2 (sec_ext d d' k L L' Hk) H p Hp).
Qed.
Lemma lock_refl s s' : ready s s' -> lock s s' s s'.
Proof. intros [M S]. split; [exact M|exact S|apply in_step_refl|intros k _; left; reflexivity]. Qed.
Lemma lock_trans s s' t t' u u' : lock s s' t t' -> lock t t' u u' -> lock s s' u u'.
Proof.
  intros [M1 S1 A1 O1] [M2 S2 A2 O2]. split; [exact M2|exact S2|exact (in_step_trans _ _ _ _ _ _ A1 A2)|].
  intros k Hk. destruct (O2 k Hk) as [E|[E|E]]; [|right; left; exact E|right; right; exact E].
  destruct (O1 k Hk) as [F|[F|F]]; [left; congruence|right; left; congruence|right; right].
  destruct S1 as (L1 & L1' & _). destruct S2 as (L2 & L2' & _). exact (in_step_sec _ _ _ _ _ L1 L1' L2 L2' Hk A2 F).
Qed.

(** ** The parts *)
Lemma upd_in_step d d' a x : zlen d = 143360 -> zlen d' = 143360 -> 0 <= a -> a + zlen x <= 143360 -> in_step d d' (upd d a x) (upd d' a x).
Proof.
  intros L L' Ha Hx p Hp. rewrite !znth_upd by lia. destruct ((a <=? p) && (p <? a + zlen x)); [left; reflexivity|right; split; reflexivity].
Qed.
Lemma persist_lock d d' sm : ready (d, sm) (d', sm) -> exists e e', Persist sm d = (e, Ok tt) /\ Persist sm d' = (e', Ok tt) /\ lock (d, sm) (d', sm) (e, sm) (e', sm).
Proof.
  intros [_ (L & L' & M)]. cbn [fst snd] in *. exists (upd d 2512 sm), (upd d' 2512 sm). rewrite !Persist_ok by lia.
  split; [reflexivity|]. split; [reflexivity|]. split; cbn [fst snd]; [reflexivity| |apply upd_in_step; lia|intros k _; left; reflexivity].
  rewrite !zlen_upd by lia. auto.
Qed.
Definition goes {A} (m : st (bytes * bytes) A) : Prop :=
  forall s s', ready s s' -> exists t t' r, m s = (t, r) /\ m s' = (t', r) /\ lock s s' t t'.
Lemma loop_goes f need cts : forall tss, Forall (fun q => 0 <= fst q < 35 /\ 0 <= snd q < 16) tss -> forall i, goes (WriteFile_loop f need cts tss i).
Proof.
  induction 1 as [|[t s] tss [Ht Hs] _ IH]; intros i [d sm] [d' sm'] R; pose proof R as [M (L & L' & Lm)]; cbn [fst snd] in *; subst sm'.
  - exists (d, sm), (d', sm), (Ok tt). split; [reflexivity|]. split; [reflexivity|apply lock_refl; exact R].
  - cbn [WriteFile_loop]. destruct (FileForSector sm t s =? FileFree); [|exact (IH i (d, sm) (d', sm) R)].
    destruct (slice cts (i * 256) ((i + 1) * 256)) as [x|e|].
    2,3: do 3 eexists; (split; [reflexivity|]; split; [reflexivity|apply lock_refl; exact R]).
    unfold WriteSector. destruct (Z.eqb_spec (zlen x) 256) as [Lx|Lx]; cbn [negb].
    2: do 3 eexists; (split; [reflexivity|]; split; [reflexivity|apply lock_refl; exact R]).
    unfold FloppyTrackBytes, FloppySectors. cbv zeta. rewrite L, L'. replace (143360 <? _) with false by lia.
    remember (t * _ + s * 256) as a eqn:Ea. assert (a = 256 * (t * 16 + s)) as Ek by lia.
    assert (LK : lock (d, sm) (d', sm) (upd d a x, sm) (upd d' a x, sm)).
    { split; cbn [fst snd]; [reflexivity|rewrite !zlen_upd by lia; auto|apply upd_in_step; lia|intros k _; left; reflexivity]. }
    unfold SetFileForSector. replace (35 <=? t) with false by lia. replace (16 <=? s) with false by lia.
    destruct ((f =? FileIllegal) || (f =? FileFree) || (f =? FileReserved)).
    1: do 3 eexists; (split; [reflexivity|]; split; [reflexivity|exact LK]).
    assert (LK2 : lock (d, sm) (d', sm) (upd d a x, zset sm (t * 16 + s) f) (upd d' a x, zset sm (t * 16 + s) f)).
    { destruct LK as [_ (Z1 & Z2 & Z3) A _]. cbn [fst snd] in *. split; cbn [fst snd]; [reflexivity| |exact A|].
      - rewrite zlen_zset by lia. auto.
      - intros k Hk. rewrite znth_zset by lia. destruct (Z.eqb_spec k (t * 16 + s)) as [->|N]; [|left; reflexivity]. right. right.
        unfold sec. rewrite <- Ek. replace (a + 256) with (a + zlen x) by lia. rewrite !sub_upd_same by lia. reflexivity. }
    destruct (i + 1 =? need).
    + do 3 eexists. split; [reflexivity|]. split; [reflexivity|exact LK2].
    + destruct (IH (i + 1) _ _ (lock_ready _ _ _ _ LK2)) as (u & u' & r & E & E' & K). exists u, u', r. split; [exact E|]. split; [exact E'|].
      exact (lock_trans _ _ _ _ _ _ LK2 K).
Qed.
Lemma all_ts_range : Forall (fun q => 0 <= fst q < 35 /\ 0 <= snd q < 16) all_ts.
Proof.
  apply Forall_forall. intros [t s] H. unfold all_ts in H. apply in_prod_iff in H as [Ht Hs]. apply In_zrange in Ht, Hs. unfold FloppyTracks, FloppySectors in *. cbn [fst snd]. lia.
Qed.
Lemma delete_lock d d' sm f : ready (d, sm) (d', sm) -> lock (d, sm) (d', sm) (d, SMDelete sm f) (d', SMDelete sm f).
Proof.
  intros [_ (L & L' & M)]. cbn [fst snd] in *. split; cbn [fst snd]; [reflexivity|rewrite zlen_SMDelete; auto|apply in_step_refl|].
  intros k Hk. rewrite znth_SMDelete by lia. destruct (znth 0 sm k =? f); auto.
Qed.
Lemma write_goes f c ow : goes (WriteFile f c ow).
Proof.
  intros [d sm] [d' sm'] R; pose proof R as [M (L & L' & Lm)]; cbn [fst snd] in *; subst sm'. unfold WriteFile. cbv zeta.
  destruct (_ <? _).
  1: do 3 eexists; (split; [reflexivity|]; split; [reflexivity|apply lock_refl; exact R]).
  destruct ((0 <? zlen (SectorsForFile sm f)) && negb ow).
  1: do 3 eexists; (split; [reflexivity|]; split; [reflexivity|apply lock_refl; exact R]).
  remember (if 0 <? zlen (SectorsForFile sm f) then SMDelete sm f else sm) as sm1 eqn:E1.
  assert (L1 : lock (d, sm) (d', sm) (d, sm1) (d', sm1)).
  { rewrite E1. destruct (0 <? _); [apply delete_lock; exact R|apply lock_refl; exact R]. }
  destruct (loop_goes f ((zlen c + 255) / 256) (upd (zeros (256 * ((zlen c + 255) / 256))) 0 c) all_ts all_ts_range 0 _ _ (lock_ready _ _ _ _ L1))
    as ([e sm2] & [e' sm2'] & r & E & E' & K). rewrite E, E'. pose proof (lk_map _ _ _ _ K) as EM. cbn [snd] in EM. subst sm2'.
  pose proof (lock_trans _ _ _ _ _ _ L1 K) as K2. destruct r as [[]|er|].
  - destruct (persist_lock e e' sm2 (lock_ready _ _ _ _ K2)) as (g & g' & P & P' & K3). rewrite P, P'.
    do 3 eexists. split; [reflexivity|]. split; [reflexivity|exact (lock_trans _ _ _ _ _ _ K2 K3)].
  - do 3 eexists. split; [reflexivity|]. split; [reflexivity|exact K2].
  - do 3 eexists. split; [reflexivity|]. split; [reflexivity|exact K2].
Qed.
Lemma untag_goes f c : goes (fun s => let '(s', r) := WriteFile f c true s in (s', untag r)).
Proof.
  intros s s' R. destruct (write_goes f c true s s' R) as (t & t' & r & E & E' & K). rewrite E, E'. do 3 eexists. split; [reflexivity|]. split; [reflexivity|exact K].
Qed.
Lemma bind_goes {A B} (m : st (bytes * bytes) A) (k : A -> st (bytes * bytes) B) : goes m -> (forall a, goes (k a)) -> goes (sbind m k).
Proof.
  intros Hm Hk s s' R. destruct (Hm s s' R) as (t & t' & r & E & E' & K). unfold sbind. rewrite E, E'. destruct r as [a|e|].
  - destruct (Hk a t t' (lock_ready _ _ _ _ K)) as (u & u' & r & F & F' & K2). rewrite F, F'. do 3 eexists. split; [reflexivity|]. split; [reflexivity|exact (lock_trans _ _ _ _ _ _ K K2)].
  - do 3 eexists. split; [reflexivity|]. split; [reflexivity|exact K].
  - do 3 eexists. split; [reflexivity|]. split; [reflexivity|exact K].
Qed.
Lemma ret_goes {A} (a : A) : goes (sret a).
Proof. intros s s' R. do 3 eexists. split; [reflexivity|]. split; [reflexivity|apply lock_refl; exact R]. Qed.
Lemma table_goes t : goes (WriteSymbolTable t).
Proof.
  intros s s' R. unfold WriteSymbolTable. destruct (fill_tables t 0 (zeros 4096) (zeros 4096)) as [[b1 b2]|e|].
  2,3: do 3 eexists; (split; [reflexivity|]; split; [reflexivity|apply lock_refl; exact R]).
  apply (bind_goes _ _ (untag_goes 3 b1)); [|exact R]. intros _. apply bind_goes; [apply untag_goes|]. intros _. apply ret_goes.
Qed.

(** ** The operator *)
Definition pair_of (o : Operator) : bytes * bytes := (op_data o, op_SM o).
Definition op_lock (o o' u u' : Operator) : Prop := op_ST u' = op_ST u /\ lock (pair_of o) (pair_of o') (pair_of u) (pair_of u').
Definition op_ready (o o' : Operator) : Prop := op_ST o' = op_ST o /\ ready (pair_of o) (pair_of o').
Definition op_goes {A} (m : st Operator A) : Prop :=
  forall o o', op_ready o o' -> exists u u' r, m o = (u, r) /\ m o' = (u', r) /\ op_lock o o' u u'.
Lemma op_lock_ready o o' u u' : op_lock o o' u u' -> op_ready u u'.
Proof. intros [E K]. split; [exact E|exact (lock_ready _ _ _ _ K)]. Qed.
Lemma op_lock_refl o o' : op_ready o o' -> op_lock o o' o o'.
Proof. intros [E K]. split; [exact E|exact (lock_refl _ _ K)]. Qed.
Lemma op_lock_trans o o' u u' v v' : op_lock o o' u u' -> op_lock u u' v v' -> op_lock o o' v v'.
Proof. intros [_ K] [E K2]. split; [exact E|exact (lock_trans _ _ _ _ _ _ K K2)]. Qed.
Lemma op_stay {A} o o' (r : res A) : op_ready o o' -> exists u u' r', (o, r) = (u, r') /\ (o', r) = (u', r') /\ op_lock o o' u u'.
Proof. intros R. exists o, o', r. split; [reflexivity|]. split; [reflexivity|exact (op_lock_refl _ _ R)]. Qed.
Lemma on_disk_goes {A} (m : st (bytes * bytes) A) : goes m -> op_goes (on_disk m).
Proof.
  intros H o o' [ES R]. destruct (H _ _ R) as ([e sm] & [e' sm'] & r & E & E' & K). unfold on_disk. unfold pair_of in E, E'. rewrite E, E'.
  do 3 eexists. split; [reflexivity|]. split; [reflexivity|]. split; [exact ES|exact K].
Qed.
Lemma op_bind_goes {A B} (m : st Operator A) (k : A -> st Operator B) : op_goes m -> (forall a, op_goes (k a)) -> op_goes (sbind m k).
Proof.
  intros Hm Hk s s' R. destruct (Hm s s' R) as (t & t' & r & E & E' & K). unfold sbind. rewrite E, E'. destruct r as [a|e|].
  - destruct (Hk a t t' (op_lock_ready _ _ _ _ K)) as (u & u' & r & F & F' & K2). rewrite F, F'. do 3 eexists. split; [reflexivity|]. split; [reflexivity|exact (op_lock_trans _ _ _ _ _ _ K K2)].
  - do 3 eexists. split; [reflexivity|]. split; [reflexivity|exact K].
  - do 3 eexists. split; [reflexivity|]. split; [reflexivity|exact K].
Qed.
Lemma op_ret_goes {A} (a : A) : op_goes (sret a).
Proof. intros o o' R. apply op_stay. exact R. Qed.
Lemma ready_st o o' : op_ready o o' -> st_of o' = st_of o /\ op_SM o' = op_SM o.
Proof. intros [E [M _]]. unfold st_of. rewrite E. split; [reflexivity|exact M]. Qed.
Lemma put_goes i ow : op_goes (PutFile i ow).
Proof.
  intros o o' R. destruct (ready_st _ _ R) as [ES EM]. unfold PutFile. rewrite ES, EM, (proj1 R). cbv zeta.
  destruct (negb _); [apply op_stay; exact R|]. destruct (negb _); [apply op_stay; exact R|].
  destruct (FilesForCompoundName (st_of o) (d_name (fi_desc_ i))) as [[[n f] y]|e|]; [|apply op_stay; exact R..].
  destruct (if beq y [] then _ else _) as [u|e|]; [|apply op_stay; exact R..].
  remember (if n =? 0 then _ else n) as num eqn:En. destruct (num =? 0); [apply op_stay; exact R|].
  apply (op_bind_goes _ _ (on_disk_goes _ (write_goes num (fi_data i) ow))); [|exact R]. intros ex.
  destruct (negb (f =? num) && negb (beq y [])); [|apply op_ret_goes].
  clear R ES EM. intros v v' R. destruct (ready_st _ _ R) as [ES EM]. rewrite ES.
  destruct (AddSymbol (st_of v) y (u16 (57088 + num))) as [t1 r1].
  assert (R1 : op_ready (Op (op_data v) (op_SM v) (Some t1)) (Op (op_data v') (op_SM v') (Some t1))) by (split; [reflexivity|exact (proj2 R)]).
  assert (K1 : op_lock v v' (Op (op_data v) (op_SM v) (Some t1)) (Op (op_data v') (op_SM v') (Some t1))) by (split; [reflexivity|exact (lock_refl _ _ (proj2 R))]).
  destruct r1 as [[]|e|].
  2,3: do 3 eexists; (split; [reflexivity|]; split; [reflexivity|exact K1]).
  destruct (op_bind_goes _ _ (on_disk_goes _ (table_goes t1)) (fun _ => op_ret_goes ex) _ _ R1) as (x & x' & r & E & E' & K). rewrite E, E'.
  do 3 eexists. split; [reflexivity|]. split; [reflexivity|exact (op_lock_trans _ _ _ _ _ _ K1 K)].
Qed.
Lemma rm_goes n : op_goes (Delete n).
Proof.
  intros o o' R. destruct (ready_st _ _ R) as [ES EM]. unfold Delete. rewrite ES, EM, (proj1 R). cbv zeta.
  destruct (FileForName (st_of o) n) as [f|e|]; [|apply op_stay; exact R..].
  assert (R0 : ready (op_data o, op_SM o) (op_data o', op_SM o)) by (destruct R as [_ R]; unfold pair_of in R; rewrite EM in R; exact R).
  pose proof (delete_lock _ _ _ f R0) as K0. destruct (persist_lock _ _ _ (lock_ready _ _ _ _ K0)) as (e & e' & E & E' & K1). rewrite E, E'.
  pose proof (lock_trans _ _ _ _ _ _ K0 K1) as K.
  assert (KK : forall t, op_lock o o' (Op e (SMDelete (op_SM o) f) t) (Op e' (SMDelete (op_SM o) f) t)).
  { intros t. split; [reflexivity|]. unfold pair_of. cbn [op_data op_SM]. rewrite EM. exact K. }
  destruct (op_ST o) as [t|]; [|do 3 eexists; (split; [reflexivity|]; split; [reflexivity|apply KK])].
  destruct (DeleteSymbol t n) as [t1 ch]. destruct ch; [|do 3 eexists; (split; [reflexivity|]; split; [reflexivity|apply KK])].
  destruct (op_bind_goes _ _ (on_disk_goes _ (table_goes t1)) (fun _ => op_ret_goes (0 <? zlen (SectorsForFile (op_SM o) f))) _ _ (op_lock_ready _ _ _ _ (KK (Some t1))))
    as (x & x' & r & F & F' & K2). rewrite F, F'.
  do 3 eexists. split; [reflexivity|]. split; [reflexivity|exact (op_lock_trans _ _ _ _ _ _ (KK (Some t1)) K2)].
Qed.
