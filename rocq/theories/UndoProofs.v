(** UndoProofs.v -- taking back changes to the files of a NakedOS disk. *)
From Coq Require Import ZifyBool ZifyNat.
From Verif Require Import GoBase GoLemmas TypesModel DiskModel DiskSpec DiskProofs.
From Verif Require Import SupermonModel SupermonSpec SupermonTableSpec SupermonStoreSpec SupermonProofs SupermonOpProofs SupermonNameProofs.
From Verif Require Import ProdosModel CmdModel CmdSpec MainModel NakedCmdSpec SessionSpec SessionProofs LawsProofs ShelfSpec TwinSpec BackupSpec BackupProofs HoldSpec HoldCmdProofs UndoSpec.
Ltac Zify.zify_post_hook ::= Z.div_mod_to_equations.
Local Opaque zrange zeros sub.

Definition in_all (F : list Z) (s : store) : Z := fold_right (fun g n => st_used s g + n) 0 F.
Lemma in_all_ext F s s' : (forall g, In g F -> st_file s' g = st_file s g) -> in_all F s' = in_all F s.
Proof.
  induction F as [|x F IH]; intros H; [reflexivity|]. unfold in_all. cbn [fold_right]. unfold st_used at 1 3. rewrite (H x (or_introl eq_refl)).
  apply f_equal. apply IH. intros g Hg. apply H. right. exact Hg.
Qed.
Lemma in_all_set F s f c n : NoDup F -> In f F -> in_all F (st_set s f c n) = in_all F s - st_used s f + zlen c / 256.
Proof.
  induction F as [|x F IH]; intros HN Hf; [contradiction|]. apply NoDup_cons_iff in HN as [Hx HN]. unfold in_all. cbn [fold_right].
  change (st_used (st_set s f c n) x + in_all F (st_set s f c n) = st_used s x + in_all F s - st_used s f + zlen c / 256).
  destruct Hf as [->|Hf].
  - rewrite (in_all_ext F s (st_set s f c n)).
    + unfold st_used at 1, st_set. cbn [st_file]. rewrite Z.eqb_refl. lia.
    + intros g Hg. unfold st_set. cbn [st_file]. destruct (Z.eqb_spec g f) as [->|_]; [contradiction|reflexivity].
  - rewrite (IH HN Hf). unfold st_used at 1, st_set. cbn [st_file]. destruct (Z.eqb_spec x f) as [->|_]; [contradiction|]. unfold st_used. lia.
Qed.
Definition writable (k : desk) (n : bytes) : Prop := k_files k n = NMissing \/ exists x, k_files k n = NFile x true true.
Record step_in (F : list Z) (k k' : desk) : Prop := {
  si_else : forall g, ~ In g F -> st_file (k_store k') g = st_file (k_store k) g;
  si_sum : st_free (k_store k') + in_all F (k_store k') = st_free (k_store k) + in_all F (k_store k);
  si_ways : forall n, writable k n -> writable k' n
}.
Lemma step_refl F k : step_in F k k.
Proof. split; [reflexivity|reflexivity|intros n H; exact H]. Qed.
Lemma step_set F k f c : NoDup F -> In f F -> zlen c mod 256 = 0 -> step_in F k (Desk (k_files k) (st_set (k_store k) f c (st_free (k_store k) + st_used (k_store k) f - zlen c / 256))).
Proof.
  intros HN Hf Hc. split; cbn [k_store k_files].
  - intros g Hg. unfold st_set. cbn [st_file]. destruct (Z.eqb_spec g f) as [->|_]; [contradiction|reflexivity].
  - rewrite (in_all_set F _ f c _ HN Hf). unfold st_set at 1. cbn [st_free]. lia.
  - intros n H. exact H.
Qed.
Lemma act_step t F a f k : NoDup F -> kept_to F a f -> step_in F k (fst (act t a f k)).
Proof.
  intros HN HK. destruct a as [ft ow addr n src|force n|n|short|file c]; cbn [act].
  - destruct f as [f|]; [|apply step_refl]. cbn [kept_to] in HK.
    destruct (k_files k src) as [| |data [|] q|]; try apply step_refl. destruct (binary ft); [|apply step_refl]. cbv zeta. cbn [fst].
    destruct (put_status (k_store k) f data ow =? 0); [|apply step_refl].
    assert (E : nsec data = zlen (padded data) / 256) by (rewrite zlen_padded; lia). rewrite E. apply step_set; [exact HN|exact HK|rewrite zlen_padded; lia].
  - destruct f as [f|]; [|apply step_refl]. cbn [kept_to] in HK. destruct (in_use (k_store k) f || force); [|apply step_refl]. cbn [fst].
    pose proof (step_set F k f [] HN HK eq_refl) as H. change (zlen (@nil Z) / 256) with 0 in H. rewrite Z.sub_0_r in H. exact H.
  - destruct f as [f|]; apply step_refl.
  - destruct f as [f|]; apply step_refl.
  - assert (X : step_in F k (fst (if can_write (k_files k file) then (Desk (fun n => if beq n file then written (k_files k file) c else k_files k n) (k_store k), (0, @nil Z)) else (k, (1, []))))).
    { destruct (can_write (k_files k file)); [|apply step_refl]. cbn [fst]. split; [reflexivity|reflexivity|]. intros n. unfold writable. cbn [k_files].
      destruct (beq n file) eqn:E; [|intros H; exact H]. apply beq_eq in E. subst n. intros [->|[x ->]]; right; exists c; reflexivity. }
    destruct f; exact X.
Qed.
Lemma step_trans F k k1 k2 : step_in F k k1 -> step_in F k1 k2 -> step_in F k k2.
Proof.
  intros [A1 A2 A3] [B1 B2 B3]. split.
  - intros g Hg. rewrite (B1 g Hg). apply A1. exact Hg.
  - lia.
  - intros n H. apply B3, A3, H.
Qed.
Lemma acts_step t F : NoDup F -> forall h k, Forall (fun af => kept_to F (fst af) (snd af)) h -> step_in F k (fst (acts t h k)).
Proof.
  intros HN. induction h as [|[a f] h IH]; intros k HK; [apply step_refl|]. apply Forall_cons_iff in HK as [H1 HK]. cbn [fst snd] in H1. cbn [acts].
  pose proof (act_step t F a f k HN H1) as S. destruct (act t a f k) as [k1 x]. cbn [fst] in S. specialize (IH k1 HK). destruct (acts t h k1) as [k2 l]. cbn [fst] in IH |- *. exact (step_trans _ _ _ _ S IH).
Qed.
Lemma acts_app t h1 : forall h2 k, acts t (h1 ++ h2) k = let '(k1, l1) := acts t h1 k in let '(k2, l2) := acts t h2 k1 in (k2, l1 ++ l2).
Proof.
  induction h1 as [|[a f] h1 IH]; intros h2 k; cbn [app acts].
  - destruct (acts t h2 k). reflexivity.
  - destruct (act t a f k) as [k1 x]. rewrite IH. destruct (acts t h1 k1) as [k2 l1]. destruct (acts t h2 k2) as [k3 l2]. reflexivity.
Qed.
Lemma acts_length t h : forall k, length (snd (acts t h k)) = length h.
Proof. induction h as [|[a f] h IH]; intros k; [reflexivity|]. cbn [acts]. destruct (act t a f k) as [k1 x]. specialize (IH k1). destruct (acts t h k1). cbn [snd length] in *. rewrite IH. reflexivity. Qed.

Definition rms (F : list Z) : list (action * option Z) := map (fun f => (ARm true (printed f), Some f)) F.
Lemma rms_acts t F : forall k, snd (acts t (rms F) k) = map (fun _ => (0, [])) F /\
  (forall g, In g F \/ st_file (k_store k) g = [] -> st_file (k_store (fst (acts t (rms F) k))) g = []).
Proof.
  induction F as [|x F IH]; intros k; cbn [rms map acts act].
  - split; [reflexivity|]. intros g [[]|H]. exact H.
  - rewrite orb_true_r. remember (Desk (k_files k) (st_set (k_store k) x [] (st_free (k_store k) + st_used (k_store k) x))) as k1 eqn:Ek.
    destruct (IH k1) as [A B]. unfold rms in A, B. destruct (acts t (map (fun f => (ARm true (printed f), Some f)) F) k1) as [k2 l]. cbn [fst snd] in A, B |- *. split; [rewrite A; reflexivity|].
    intros g Hg. apply B. destruct Hg as [[->|Hg]|Hg]; [right|left; exact Hg|right]; rewrite Ek; unfold st_set; cbn [k_store st_file]; [rewrite Z.eqb_refl; reflexivity|].
    destruct (g =? x); [reflexivity|exact Hg].
Qed.
Lemma rms_kept F : forall G, (forall g, In g G -> In g F) -> Forall (fun af => kept_to F (fst af) (snd af)) (rms G).
Proof. intros G H. apply Forall_forall. intros af Hin. apply in_map_iff in Hin as (g & <- & Hg). cbn [fst snd kept_to]. apply H. exact Hg. Qed.
Lemma throughout_split P a : forall b w, throughout P (a ++ b) w -> throughout P a w /\ throughout P b (fst (session a w)).
Proof.
  induction a as [|p a IH]; intros b w H; cbn [app throughout session] in *; [split; [exact Logic.I|exact H]|].
  destruct H as [H1 H2]. apply IH in H2 as [H2 H3]. split; [split; [exact H1|exact H2]|].
  destruct (main_run p (quiet w)) as [w1 s]. cbn [fst] in H3. destruct (session a w1) as [w2 l]. exact H3.
Qed.

Lemma NoDup_front (a b : list Z) : NoDup (a ++ b) -> NoDup a.
Proof.
  induction a as [|x a IH]; intros H; [apply NoDup_nil|]. cbn [app] in H. apply NoDup_cons_iff in H as [H1 H2]. apply NoDup_cons; [|exact (IH H2)].
  intros X. apply H1. apply in_or_app. left. exact X.
Qed.

Lemma undone : forall (iter : list (Z * Subdirectory) -> list (Z * Subdirectory)) fuel order img o t h F G l ow addr w c d,
  img <> s2b "-" -> first_order img order o -> no_numeric_symbols t ->
  w_fs w img = NFile c true true -> naked_image c o d -> names_on d t -> w_room w = None -> w_outroom w = None ->
  Forall (fun af => meant t img (fst af) (snd af)) h -> Forall (fun af => kept_to F (fst af) (snd af)) h ->
  F = map it_file l ++ G -> NoDup F -> ~ In 3 F -> ~ In 4 F -> Forall (good_item img w) l ->
  (forall i, In i l -> file_on d (it_file i) <> []) -> (forall g, In g G -> legal g /\ file_on d g = []) ->
  throughout (unmarked img) (map (command iter fuel order img) (map fst h ++ undo ow addr d F l)) w ->
  exists v c1 d1 l1, session (map (command iter fuel order img) (map fst h ++ undo ow addr d F l)) w = (v, l1 ++ map (fun _ => (0, [])) (undo ow addr d F l)) /\
    length l1 = length h /\ w_fs v img = NFile c1 true true /\ same_holding c c1 o d d1.
Proof.
  intros iter fuel order img o t h F G l ow addr w c d Hi Ho Ht Fw N Hnm Hr Hor HM HK EF HN H3 H4 HGI Hl HG HT.
  pose proof (fl_len _ _ (proj2 N)) as Hd.
  assert (HLF : forall g, In g F -> legal g).
  { intros g Hg. rewrite EF in Hg. apply in_app_or in Hg as [Hg|Hg]; [|exact (proj1 (HG g Hg))]. apply in_map_iff in Hg as (i & <- & Hin). rewrite Forall_forall in HGI. exact (proj1 (gi_name _ _ _ (HGI i Hin))). }
  remember (Desk (w_fs w) (store_of d (stored_map d))) as k eqn:Ek.
  assert (HA : agrees img o t False w k).
  { rewrite Ek. split; [|reflexivity|exact Hr|exact Hor]. exists c, d. split; [exact Fw|]. split; [exact N|]. split; [exact Hnm|]. split; [split; reflexivity|intros []]. }
  assert (HM2 : Forall (fun af => meant t img (fst af) (snd af)) (h ++ rms F)).
  { apply Forall_app. split; [exact HM|]. apply Forall_forall. intros af Hin. apply in_map_iff in Hin as (g & <- & Hg). cbn [fst snd]. constructor.
    - apply printed_numeric, HLF, Hg.
    - intros ->. exact (H3 Hg).
    - intros ->. exact (H4 Hg). }
  assert (HK2 : Forall (fun af => kept_to F (fst af) (snd af)) (h ++ rms F)) by (apply Forall_app; split; [exact HK|apply rms_kept; intros g Hg; exact Hg]).
  assert (EC : map (command iter fuel order img) (map fst h ++ undo ow addr d F l) =
    map (command iter fuel order img) (map fst (h ++ rms F)) ++ map (command iter fuel order img) (restore ow addr d l)).
  { unfold undo, rms. rewrite app_assoc, map_app, (map_app fst), (map_map _ fst). reflexivity. }
  rewrite EC in HT |- *. apply throughout_split in HT as [T1 T2].
  destruct (session_refines iter fuel order img o Ho Hi t Ht False (h ++ rms F) w k HA HM2 T1) as [S1 S2]; [intros []|].
  pose proof (acts_step t F HN (h ++ rms F) k HK2) as ST.
  assert (HE : exists l1, snd (acts t (h ++ rms F) k) = l1 ++ map (fun _ => (0, [])) F /\ length l1 = length h /\
    forall g, In g F -> st_file (k_store (fst (acts t (h ++ rms F) k))) g = []).
  { rewrite acts_app. pose proof (acts_length t h k) as HL. destruct (acts t h k) as [k1 l1]. cbn [snd] in HL.
    destruct (rms_acts t F k1) as [A B]. destruct (acts t (rms F) k1) as [k2 l2]. cbn [fst snd] in A, B |- *. exists l1. rewrite A. split; [reflexivity|]. split; [exact HL|]. intros g Hg. apply B. left. exact Hg. }
  destruct HE as (l1 & E1 & E2 & E3).
  remember (fst (acts t (h ++ rms F) k)) as k1 eqn:Ek1. clear Ek1.
  destruct (session (map (command iter fuel order img) (map fst (h ++ rms F))) w) as [v1 l2] eqn:Es. cbn [fst snd] in S1, S2, T2.
  destruct S2 as [(c2 & e & G1 & G2 & _ & G4 & _) G5 G6 G7]. destruct ST as [P1 P2 P3]. destruct G4 as [Q1 Q2]. cbn [store_of st_file st_free] in Q1, Q2.
  (* the disk between *)
  assert (Hfree : free_on e = total d l + free_on d).
  { assert (Z1 : in_all F (k_store k1) = 0).
    { clear - E3. induction F as [|x F IH]; [reflexivity|]. unfold in_all. cbn [fold_right]. unfold st_used at 1. rewrite (E3 x (or_introl eq_refl)). change (0 + in_all F (k_store k1) = 0). rewrite IH; [reflexivity|]. intros g Hg. apply E3. right. exact Hg. }
    assert (Z2 : in_all F (k_store k) = total d l).
    { rewrite Ek, EF. cbn [k_store]. clear - Hd HG. induction l as [|i l IH]; cbn [map app].
      - induction G as [|g G IH]; [reflexivity|]. unfold in_all. cbn [fold_right]. unfold st_used at 1. cbn [store_of st_file].
        pose proof (proj2 (HG g (or_introl eq_refl))) as X. unfold file_on in X. rewrite X. change (0 + in_all G (store_of d (stored_map d)) = total d []). rewrite IH; [reflexivity|]. intros y Hy. apply HG. right. exact Hy.
      - unfold in_all, total. cbn [fold_right]. unfold st_used at 1. cbn [store_of st_file]. rewrite used_owned by exact Hd. unfold sectors_on at 1. apply f_equal. exact IH. }
    unfold free_on at 1. rewrite Q2, <- Z2. rewrite Z1 in P2. rewrite Ek in P2 |- *. cbn [k_store store_of st_free] in P2 |- *. unfold free_on. lia. }
  assert (0 <= free_on d) by (unfold free_on; apply zlen_nonneg).
  assert (Hin : forall i, In i l -> In (it_file i) F) by (intros i Hin; rewrite EF; apply in_or_app; left; apply in_map; exact Hin).
  assert (HI2 : forall i, In i l -> file_on d (it_file i) <> [] /\ file_on e (it_file i) = []).
  { intros i Hil. split; [exact (Hl i Hil)|]. unfold file_on. rewrite (Q1 _ (HLF _ (Hin i Hil))). apply E3. exact (Hin i Hil). }
  assert (HGI2 : Forall (good_item img v1) l).
  { apply Forall_forall. intros i Hil. rewrite Forall_forall in HGI. destruct (HGI i Hil) as [g1 g2 g3 g4]. split; [exact g1|exact g2|exact g3|].
    rewrite (G5 _ g3). apply (P3 (it_way i)). unfold writable. rewrite Ek. exact g4. }
  assert (HN2 : NoDup (map it_file l)) by (rewrite EF in HN; exact (NoDup_front _ _ HN)).
  assert (Hfit : total d l <= free_on e) by lia.
  destruct (restore_lemma iter fuel order img o ow addr d l v1 c2 e Hi Ho Hd G1 G2 G6 G7 HGI2 HN2 HI2 Hfit T2) as (v & c1 & d1 & R0 & R1 & R2 & R3 & R4 & R5 & _).
  exists v, c1, d1, l1. rewrite session_app, Es, R0. split; [|split; [exact E2|split; [exact R1|]]].
  - rewrite S1, E1. unfold undo. rewrite map_app, map_map, app_assoc. reflexivity.
  - split; [exact N|exact R2| |lia]. intros f Hf. destruct (in_dec Z.eq_dec f F) as [Hin2|Hout].
    + rewrite EF in Hin2. destruct (in_dec Z.eq_dec f (map it_file l)) as [Hm|Hm].
      * apply in_map_iff in Hm as (i & <- & Hil). apply R3. exact Hil.
      * apply in_app_or in Hin2 as [X|X]; [contradiction|]. rewrite R4; [|exact Hf|intros i Hil E; apply Hm; rewrite <- E; apply in_map; exact Hil].
        rewrite (proj2 (HG f X)). unfold file_on. rewrite (Q1 f Hf). apply E3. rewrite EF. apply in_or_app. right. exact X.
    + rewrite R4; [|exact Hf|intros i Hil E; apply Hout; rewrite <- E; exact (Hin i Hil)].
      unfold file_on at 1. rewrite (Q1 f Hf), (P1 f Hout), Ek. reflexivity.
Qed.
Lemma undone_later : forall (iter : list (Z * Subdirectory) -> list (Z * Subdirectory)) fuel order img o t h F G l ow addr w c d,
  img <> s2b "-" -> first_order img order o -> no_numeric_symbols t ->
  w_fs w img = NFile c true true -> naked_image c o d -> names_on d t -> w_room w = None -> w_outroom w = None ->
  Forall (fun af => meant t img (fst af) (snd af)) h -> Forall (fun af => kept_to F (fst af) (snd af)) h ->
  F = map it_file l ++ G -> NoDup F -> ~ In 3 F -> ~ In 4 F -> Forall (good_item img w) l ->
  (forall i, In i l -> file_on d (it_file i) <> []) -> (forall g, In g G -> legal g /\ file_on d g = []) ->
  throughout (unmarked img) (map (command iter fuel order img) (map fst h ++ undo ow addr d F l)) w ->
  exists v c1 d1 l1, session (map (command iter fuel order img) (map fst h ++ undo ow addr d F l)) w = (v, l1 ++ map (fun _ => (0, [])) (undo ow addr d F l)) /\
    length l1 = length h /\ w_fs v img = NFile c1 true true /\ same_holding c c1 o d d1 /\
    forall h2 u, Forall (work_of order img) h2 -> beside img u v -> w_fs u img = NFile c true true -> no_empty_source h2 u ->
      throughout (unmarked img) (map (deed_command iter fuel) h2) u -> throughout (unmarked img) (map (deed_command iter fuel) h2) v ->
      snd (session (map (deed_command iter fuel) h2) v) = snd (session (map (deed_command iter fuel) h2) u).
Proof.
  intros iter fuel order img o t h F G l ow addr w c d Hi Ho Ht Fw N Hnm Hr Hor HM HK EF HN H3 H4 HGI Hl HG HT.
  destruct (undone iter fuel order img o t h F G l ow addr w c d Hi Ho Ht Fw N Hnm Hr Hor HM HK EF HN H3 H4 HGI Hl HG HT) as (v & c1 & d1 & l1 & S & L & F1 & HS).
  exists v, c1, d1, l1. split; [exact S|]. split; [exact L|]. split; [exact F1|]. split; [exact HS|].
  intros h2 u Hh HB Fu NE U V.
  destruct (place_session iter fuel order img o h2 u v c c1 true d d1 Hi Ho Hh HB Fu F1 HS NE U V) as (v1 & v1' & l2 & _ & _ & _ & _ & _ & E & E' & _).
  rewrite E, E'. reflexivity.
Qed.
