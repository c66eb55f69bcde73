(** CycleProofs.v -- proofs for property C121: the loader of mkhello through a session. *)
From Coq Require Import ZifyBool ZifyNat.
From Verif Require Import GoBase GoLemmas TypesModel DiskModel DiskSpec DiskProofs.
From Verif Require Import SupermonModel SupermonSpec SupermonTableSpec SupermonStoreSpec SupermonProofs SupermonNameProofs SupermonFinalProofs SupermonOpProofs ProdosModel CmdModel CmdSpec MainModel NakedCmdSpec BootSpec HelloSpec HelloProofs.
From Verif Require Import SessionSpec NamesSpec ShelfSpec ShelfProofs CycleSpec.
From Verif Require LawsProofs StatusProofs.
Ltac Zify.zify_post_hook ::= Z.div_mod_to_equations.
Local Opaque zrange zeros sub.

(** ** A disk with the loader *)
Lemma zlen_loader f a start : zlen (loader f a start) = 16.
Proof. reflexivity. Qed.
Lemma disk_starts c o s l f a start : disk_of c o s l -> st_file s 1 = padded (loader f a start) -> legal f -> f <> 3 -> f <> 4 ->
  a mod 256 = 0 -> 0 <= start < 65536 -> in_use s f = true -> 0x400 <= a -> a + zlen (st_file s f) <= 0xC000 ->
  exists d, naked_image c o d /\ starts_into d (st_file s f) a start.
Proof.
  intros (d & t & ch & Hn & _ & _ & _ & _ & _ & _ & [HS _] & _) H1 Hl N3 N4 Hp Hst Hu Ha Hend. exists d. split; [exact Hn|].
  destruct (HS 1 ltac:(unfold legal; lia)) as [_ E1]. specialize (E1 ltac:(lia) ltac:(lia)). rewrite H1 in E1.
  destruct (HS f Hl) as [_ Ef]. specialize (Ef N3 N4). cbn [store_of st_file] in E1, Ef.
  intros p s0 Hl1 Hl2 Hout Hpc HS0 Hm.
  assert (Hne : st_file s f <> []) by (intros E; unfold in_use in Hu; rewrite E in Hu; discriminate Hu).
  apply (at_start d (st_file s f) f a start p); try assumption.
  intros i Hi. rewrite (Hm i Hi). unfold file_on. rewrite E1. unfold padded. rewrite znth_app by lia. rewrite zlen_loader.
  replace (i <? 16) with true by lia. reflexivity.
Qed.

(** ** Sessions in pieces *)
Lemma deeds_app a : forall b K, deeds (a ++ b) K = let '(K1, l1) := deeds a K in let '(K2, l2) := deeds b K1 in (K2, l1 ++ l2).
Proof.
  induction a as [|[x m] a IH]; intros b K; cbn [app deeds].
  - destruct (deeds b K); reflexivity.
  - destruct (do x m K) as [K1 o]. rewrite IH. destruct (deeds a K1) as [K2 l1]. destruct (deeds b K2) as [K3 l2]. reflexivity.
Qed.
Lemma orderly_app a : forall b K, orderly (a ++ b) K -> orderly a K /\ orderly b (fst (deeds a K)).
Proof.
  induction a as [|[x m] a IH]; intros b K H; [split; [exact I|exact H]|]. cbn [app orderly deeds] in *. destruct H as [H1 H2].
  destruct (do x m K) as [K1 o] eqn:Ed. cbn [fst] in *. destruct (IH _ _ H2) as [I1 I2]. destruct (deeds a K1) as [K2 l]. split; [split; assumption|exact I2].
Qed.
Lemma unnoticed_app iter fuel a : forall b w, unnoticed iter fuel (a ++ b) w -> unnoticed iter fuel a w.
Proof.
  induction a as [|x a IH]; intros b w H; [exact I|]. cbn [app unnoticed] in *. destruct H as [H1 H2]. split; [exact H1|]. exact (IH _ _ H2).
Qed.
Lemma leaves_app g img a : forall b K, leaves g img (a ++ b) K -> leaves g img a K /\ leaves g img b (fst (deeds a K)).
Proof.
  induction a as [|[x m] a IH]; intros b K H; [split; [exact I|exact H]|]. cbn [app leaves deeds] in *. destruct H as [H1 H2].
  destruct (do x m K) as [K1 o] eqn:Ed. cbn [fst] in *. destruct (IH _ _ H2) as [I1 I2]. destruct (deeds a K1) as [K2 l]. split; [split; assumption|exact I2].
Qed.
Lemma deeds_length h : forall K, length (snd (deeds h K)) = length h.
Proof.
  induction h as [|[x m] h IH]; intros K; [reflexivity|]. cbn [deeds]. destruct (do x m K) as [K1 o]. specialize (IH K1). destruct (deeds h K1) as [K2 l]. cbn [snd length] in *. lia.
Qed.

(** ** What is left alone *)
Lemma act2_leaves a p k g : touched a p (b_store k) <> Some g -> st_file (b_store (fst (act2 a p k))) g = st_file (b_store k) g.
Proof.
  destruct k as [F s l]. cbn [b_store]. destruct a as [ft ow addr n src|force n|n|short|file c]; cbn [touched act2 b_files b_store b_cards]; intros H.
  - destruct (F src) as [| |data [|] wr|]; try reflexivity. destruct (goal p s) as [[f q]|]; [|reflexivity]. cbn [option_map fst] in H.
    destruct (binary ft); [|reflexivity]. destruct (put_status s f data ow =? 0); [|reflexivity]. destruct (bind l q (57088 + f)); [|reflexivity].
    cbn [fst b_store st_set st_file]. destruct (Z.eqb_spec g f) as [->|]; [contradiction (H eq_refl)|reflexivity].
  - destruct (goal p s) as [[f q]|]; [|reflexivity]. cbn [option_map fst] in H. destruct (in_use s f || force); [|reflexivity].
    cbn [fst b_store st_set st_file]. destruct (Z.eqb_spec g f) as [->|]; [contradiction (H eq_refl)|reflexivity].
  - destruct (goal p s) as [[f q]|]; reflexivity.
  - reflexivity.
  - destruct (can_write (F file)); reflexivity.
Qed.
Lemma shelve_same K img x : sh_disks (shelve K img x) img = Some x.
Proof. cbn [shelve sh_disks]. rewrite (proj2 (beq_eq img img) eq_refl). reflexivity. Qed.
Lemma shelve_other K i img x : i <> img -> sh_disks (shelve K i x) img = sh_disks K img.
Proof. intros H. cbn [shelve sh_disks]. destruct (beq img i) eqn:E; [apply beq_eq in E; congruence|reflexivity]. Qed.
Lemma beq_dec (a b : bytes) : a = b \/ a <> b.
Proof. destruct (beq a b) eqn:E; [left; apply beq_eq; exact E|right; apply beq_neq; exact E]. Qed.
Lemma do_leaves g img x m K y : leaves_alone g img x m K -> sh_disks K img = Some y ->
  exists y', sh_disks (fst (do x m K)) img = Some y' /\ st_file (kp_store y') g = st_file (kp_store y) g.
Proof.
  intros HL HY. assert (Hsame : exists y', sh_disks K img = Some y' /\ st_file (kp_store y') g = st_file (kp_store y) g) by (exists y; split; [exact HY|reflexivity]).
  destruct x as [order i a|order i n a s0|a b ow i new|i new|file c]; cbn [leaves_alone] in HL; cbn [do].
  - destruct m as [p|f p]; [|exact Hsame]. destruct (sh_disks K i) as [z|] eqn:Ez; [|exact Hsame].
    destruct (act2 a p (Board (sh_files K) (kp_store z) (kp_cards z))) as [k o] eqn:Ea. cbn [fst].
    destruct (beq_dec i img) as [->|Hi]; [|rewrite (shelve_other _ _ _ _ Hi); exact Hsame].
    rewrite shelve_same. rewrite HY in Ez. injection Ez as <-. exists (on_kept y k). split; [reflexivity|]. cbn [on_kept kp_store].
    specialize (HL eq_refl). cbn [file_touched] in HL. rewrite HY in HL.
    pose proof (act2_leaves a p (Board (sh_files K) (kp_store y) (kp_cards y)) g HL) as E. rewrite Ea in E. exact E.
  - destruct m as [p|f p]; [exact Hsame|]. destruct (sh_disks K i) as [z|] eqn:Ez; [|exact Hsame].
    destruct (_ && _); [|exact Hsame].
    match goal with |- context [act2 ?A ?P ?B] => destruct (act2 A P B) as [k o] eqn:Ea end. cbn [fst].
    destruct (beq_dec i img) as [->|Hi]; [|rewrite (shelve_other _ _ _ _ Hi); exact Hsame].
    rewrite shelve_same. rewrite HY in Ez. injection Ez as <-. exists (on_kept y k). split; [reflexivity|]. cbn [on_kept kp_store].
    specialize (HL eq_refl). cbn [file_touched] in HL. rewrite HY in HL.
    match type of Ea with act2 ?A ?P ?B = _ => pose proof (act2_leaves A P B g HL) as E end. rewrite Ea in E. exact E.
  - destruct (sh_disks K i) as [z|] eqn:Ez; [|exact Hsame]. destruct (beq new []) eqn:En.
    + cbn [fst]. destruct (beq_dec i img) as [->|Hi]; [|rewrite (shelve_other _ _ _ _ Hi); exact Hsame].
      rewrite shelve_same. rewrite HY in Ez. injection Ez as <-. exists (turned y). split; reflexivity.
    + destruct (sh_disks K new), ow; cbn [fst]; try exact Hsame; rewrite (shelve_other _ _ _ _ HL); exact Hsame.
  - destruct (sh_disks K i) as [z|]; [|exact Hsame]. cbn [fst]. rewrite (shelve_other _ _ _ _ HL). exact Hsame.
  - destruct (can_write (sh_files K file)); exact Hsame.
Qed.
Lemma deeds_leave g img h : forall K y, leaves g img h K -> sh_disks K img = Some y ->
  exists y', sh_disks (fst (deeds h K)) img = Some y' /\ st_file (kp_store y') g = st_file (kp_store y) g.
Proof.
  induction h as [|[x m] h IH]; intros K y HL HY; [exists y; split; [exact HY|reflexivity]|]. cbn [leaves deeds] in *. destruct HL as [H1 H2].
  destruct (do_leaves g img x m K y H1 HY) as (y1 & E1 & F1). destruct (do x m K) as [K1 o]. cbn [fst] in *.
  destruct (IH K1 y1 H2 E1) as (y2 & E2 & F2). destruct (deeds h K1) as [K2 l]. exists y2. split; [exact E2|congruence].
Qed.

(** ** What mkhello and put leave *)
Lemma colon_split (p q p' q' : bytes) : no_colon p -> no_colon p' -> p ++ 58 :: q = p' ++ 58 :: q' -> p = p' /\ q = q'.
Proof. exact (StatusProofs.colon_split p q p' q'). Qed.
Lemma loader_plan l s img p : planned l s img (loader_put img) p -> goal p s = None \/ exists n, goal p s = Some (1, n).
Proof.
  intros H. unfold loader_put in H. assert (Hc : ~ no_colon (s2b "DF01:FHELLO")) by (intros X; apply X; vm_compute; tauto).
  assert (N1 : forall f, numeric (s2b "DF01") f -> f = 1).
  { intros f Hf. assert (H1 : numeric (s2b "DF01") 1) by (apply SessionExProofs.numeric_parse; [reflexivity|lia]). exact (numeric_det _ _ _ Hf H1). }
  assert (Hp : forall p0 q f, numeric p0 f -> p0 ++ 58 :: q = s2b "DF01:FHELLO" -> f = 1).
  { intros p0 q f Hf E. change (s2b "DF01:FHELLO") with (s2b "DF01" ++ 58 :: s2b "FHELLO") in E.
    apply colon_split in E as [-> _]; [apply N1; exact Hf|exact (numeric_no_colon _ _ Hf)|]. intros X. vm_compute in X. intuition discriminate. }
  inversion H as [? ? ? ? ? f R [N|V]|? ? ? ? ? R V|? ? ? p0 q ? f N|? ? ? p0 q ? f N| | | | | | | |]; subst.
  - contradiction Hc. exact (numeric_no_colon _ _ N).
  - contradiction Hc. exact (AfterProofs.valid_no_colon _ V).
  - contradiction Hc. exact (AfterProofs.valid_no_colon _ V).
  - right. exists []. cbn [goal]. rewrite (Hp p0 q f N) by assumption. reflexivity.
  - right. exists q. cbn [goal]. rewrite (Hp p0 q f N) by assumption. reflexivity.
  - left. reflexivity.
Qed.
Lemma loader_goal img p K f a start order n0 a0 s0 x l : sound K (Hello order img n0 a0 s0) (SLoad f p) -> sh_disks K img = Some x ->
  snd (act2 (loader_put img) p (Board (fun _ => NFile (loader f a start) true true) (kp_store x) (kp_cards x))) = (0, l) ->
  st_file (b_store (fst (act2 (loader_put img) p (Board (fun _ => NFile (loader f a start) true true) (kp_store x) (kp_cards x))))) 1 = padded (loader f a start).
Proof.
  intros HS HX. inversion HS as [|order' img' n' a' s' f' p' x' HX' Hd Hf Ha Hs HT HP| | |]; subst. rewrite HX in HX'. injection HX' as <-.
  unfold loader_put at 1 2. cbn [act2 b_files b_store b_cards].
  destruct (loader_plan _ _ _ _ HP) as [->|[q ->]]; [intros E; discriminate E|]. change (binary (s2b "B")) with true. cbv iota.
  destruct (put_status (kp_store x) 1 (loader f a start) true =? 0) eqn:E0; [|cbn [snd]; intros E; injection E as E _; rewrite E in E0; discriminate E0].
  destruct (bind (kp_cards x) q (57088 + 1)); [|intros E; discriminate E]. intros _. reflexivity.
Qed.
Lemma hello_leaves K order img n a s0 f p K1 o : sound K (Hello order img n a s0) (SLoad f p) -> do (Hello order img n a s0) (SLoad f p) K = (K1, (0, o)) ->
  let start := if s0 =? 0xFFFF then a else s0 in
  a mod 256 = 0 /\ 0 <= start < 65536 /\ legal f /\ exists x, sh_disks K1 img = Some x /\ st_file (kp_store x) 1 = padded (loader f a start).
Proof.
  intros HS E start. pose proof HS as HS0. inversion HS as [|order' img' n' a' s' f' p' x HX Hd Hf Ha Hs HT HP| | |]; subst order' img' n' a' s' f' p'.
  assert (Hl : legal f) by (destruct HT as [? ? ? [R|[_ R]]|? ? ? ? ? R _]; apply R).
  assert (Hst : 0 <= start < 65536) by (unfold start; clear - Ha Hs; destruct (s0 =? 65535); lia).
  cbn [do] in E. change (if s0 =? 65535 then a else s0) with start in E. rewrite HX in E.
  destruct ((a mod 256 =? 0) && (a <=? start)) eqn:Ep; [|discriminate E].
  pose proof (loader_goal img p K f a start order n a s0 x o HS0 HX) as HG.
  destruct (act2 (loader_put img) p (Board (fun _ => NFile (loader f a start) true true) (kp_store x) (kp_cards x))) as [k out] eqn:Ea. cbn [fst snd] in HG.
  injection E as E1 E2. split; [clear - Ep; lia|]. split; [exact Hst|]. split; [exact Hl|]. exists (on_kept x k). rewrite <- E1, shelve_same. split; [reflexivity|]. exact (HG E2).
Qed.
Lemma put_leaves K order img ft ow addr n src p K1 o f data q : sound K (On order img (APut ft ow addr n src)) (SPlan p) ->
  do (On order img (APut ft ow addr n src)) (SPlan p) K = (K1, (0, o)) ->
  file_touched (On order img (APut ft ow addr n src)) (SPlan p) K = Some f -> sh_files K src = NFile data true q ->
  exists x, sh_disks K1 img = Some x /\ st_file (kp_store x) f = padded data.
Proof.
  intros HS E HT HF. inversion HS as [order' img' a' p' x HX Hd Hf HP Ho| | | |]; subst order' img' a' p'.
  cbn [do file_touched] in E, HT. rewrite HX in E, HT. cbn [touched] in HT.
  destruct (goal p (kp_store x)) as [[g sy]|] eqn:Eg; [|discriminate HT]. cbn [option_map fst] in HT. injection HT as ->.
  cbn [act2 b_files b_store b_cards] in E. rewrite HF, Eg in E. destruct (binary ft); [|discriminate E].
  destruct (put_status (kp_store x) f data ow =? 0) eqn:E0.
  - destruct (bind (kp_cards x) sy (57088 + f)); [|discriminate E]. injection E as E1 _.
    eexists. rewrite <- E1, shelve_same. split; [reflexivity|]. cbn [on_kept kp_store b_store st_set st_file]. rewrite Z.eqb_refl. reflexivity.
  - injection E as _ E1 _. rewrite E1 in E0. discriminate E0.
Qed.
Lemma put_reads K order img ft ow addr n src p K1 o : sound K (On order img (APut ft ow addr n src)) (SPlan p) ->
  do (On order img (APut ft ow addr n src)) (SPlan p) K = (K1, (0, o)) -> exists data q, sh_files K src = NFile data true q.
Proof.
  intros HS E. inversion HS as [order' img' a' p' x HX Hd Hf HP Ho| | | |]; subst order' img' a' p'.
  cbn [do] in E. rewrite HX in E. cbn [act2 b_files b_store b_cards] in E.
  destruct (sh_files K src) as [| |data [|] wr|]; try discriminate E. exists data, wr. reflexivity.
Qed.

(** ** The session *)
Lemma shelf_starts : forall (iter : list (Z * Subdirectory) -> list (Z * Subdirectory)) fuel h w K w' l img x f a start,
  shows w K -> orderly h K -> unnoticed iter fuel (map fst h) w ->
  session (map (fun xm => deed_command iter fuel (fst xm)) h) w = (w', l) ->
  sh_disks (fst (deeds h K)) img = Some x -> st_file (kp_store x) 1 = padded (loader f a start) ->
  legal f -> f <> 3 -> f <> 4 -> a mod 256 = 0 -> 0 <= start < 65536 ->
  in_use (kp_store x) f = true -> 0x400 <= a -> a + zlen (st_file (kp_store x) f) <= 0xC000 ->
  exists c d, w_fs w' img = NFile c true true /\ naked_image c (kp_order x) d /\ starts_into d (st_file (kp_store x) f) a start.
Proof.
  intros iter fuel h w K w' l img x f a start HS Ho Hu HR HX H1 Hl N3 N4 Hp Hst Hin Ha Hend.
  destruct (shelf_session iter fuel h w K HS Ho Hu) as (w1 & K' & l1 & E1 & E2 & HS'). rewrite HR in E1. injection E1 as <- <-. rewrite E2 in HX. cbn [fst] in HX.
  destruct (sw_disks _ _ HS' img x HX) as (c & Hc & Hd). destruct (disk_starts _ _ _ _ f a start Hd H1 Hl N3 N4 Hp Hst Hin Ha Hend) as (d & Hn & Hr).
  exists c, d. split; [exact Hc|]. split; assumption.
Qed.
Lemma padded_ne data : data <> [] -> beq (padded data) [] = false.
Proof. destruct data; [intros H; contradiction (H eq_refl)|reflexivity]. Qed.
Lemma app_split {A} (a b c d : list A) : length a = length c -> a ++ b = c ++ d -> a = c /\ b = d.
Proof.
  revert c. induction a as [|x a IH]; intros [|y c] H E; try discriminate H; [split; [reflexivity|exact E]|]. cbn [app] in E. injection E as -> E.
  destruct (IH c) as [-> ->]; [cbn [length] in H; lia|exact E|]. split; reflexivity.
Qed.
Lemma latest_starts : forall (iter : list (Z * Subdirectory) -> list (Z * Subdirectory)) fuel h1 order img n a s0 f p h2 order2 ft ow addr n2 src p2 h3 w K w' l1 o1 l2 o2 l3 data r q,
  let hello := (Hello order img n a s0, SLoad f p) in
  let put := (On order2 img (APut ft ow addr n2 src), SPlan p2) in
  let start := if s0 =? 0xFFFF then a else s0 in
  let run_of h := session (map (fun xm => deed_command iter fuel (fst xm)) h) w in
  let shelf_after h := fst (deeds h K) in
  shows w K -> orderly (h1 ++ hello :: h2 ++ put :: h3) K -> unnoticed iter fuel (map fst (h1 ++ hello :: h2 ++ put :: h3)) w ->
  run_of (h1 ++ hello :: h2 ++ put :: h3) = (w', l1 ++ (0, o1) :: l2 ++ (0, o2) :: l3) -> length l1 = length h1 -> length l2 = length h2 ->
  leaves 1 img (h2 ++ put :: h3) (shelf_after (h1 ++ [hello])) ->
  file_touched (fst put) (snd put) (shelf_after (h1 ++ hello :: h2)) = Some f -> f <> 3 -> f <> 4 ->
  leaves f img h3 (shelf_after (h1 ++ hello :: h2 ++ [put])) ->
  w_fs (fst (run_of (h1 ++ hello :: h2))) src = NFile data r q -> data <> [] -> 0x400 <= a -> a + zlen (padded data) <= 0xC000 ->
  exists c o d, w_fs w' img = NFile c true true /\ naked_image c o d /\ starts_into d (padded data) a start.
Proof.
  intros iter fuel h1 order img n a s0 f p h2 order2 ft ow addr n2 src p2 h3 w K w' l1 o1 l2 o2 l3 data r q hello put start run_of shelf_after
    HS Ho Hu HR L1 L2 Lv1 HT N3 N4 Lvf HF Hd Ha Hend. unfold run_of in HR, HF. unfold shelf_after in Lv1, HT, Lvf. clear run_of shelf_after.
  destruct (shelf_session iter fuel _ w K HS Ho Hu) as (w1 & K' & l & E1 & E2 & HS'). rewrite HR in E1. injection E1 as <- <-.
  (* the prefix *)
  assert (Epre : h1 ++ hello :: h2 ++ put :: h3 = (h1 ++ hello :: h2) ++ put :: h3) by (rewrite <- app_assoc; reflexivity).
  pose proof Ho as Hop. rewrite Epre in Hop. apply orderly_app in Hop as [Hop1 Hop2].
  assert (Hup : unnoticed iter fuel (map fst (h1 ++ hello :: h2)) w) by (apply (unnoticed_app iter fuel _ (map fst (put :: h3))); rewrite <- map_app, <- Epre; exact Hu).
  destruct (shelf_session iter fuel _ w K HS Hop1 Hup) as (w2 & K2 & l0 & E3 & E4 & HS2). rewrite E3 in HF. cbn [fst] in HF.
  rewrite E4 in Hop2, HT. cbn [fst] in Hop2, HT.
  (* the shelf step by step *)
  apply orderly_app in Ho as [Ho1 Ho2]. rewrite deeds_app in E2, E4, Lv1, Lvf. pose proof (deeds_length h1 K) as Q1.
  destruct (deeds h1 K) as [K0 l0'] eqn:D1. cbn [fst snd] in Ho2, Q1. cbn [orderly] in Ho2. destruct Ho2 as [HSh Ho2].
  unfold hello in E2, E4, Lv1, Lvf. cbn [deeds] in E2, E4, Lv1, Lvf. unfold hello in HSh, Ho2. cbn [fst snd] in HSh, Ho2.
  destruct (do (Hello order img n a s0) (SLoad f p) K0) as [K1 out1] eqn:DH. cbn [fst] in Ho2, Lv1.
  rewrite deeds_app in E2, Lvf. pose proof (deeds_length h2 K1) as Q2.
  destruct (deeds h2 K1) as [K2' l2'] eqn:D2. cbn [fst snd] in Q2. injection E4 as -> E4.
  cbn [orderly] in Hop2. destruct Hop2 as [HSp Hop3]. unfold put in E2, Lvf. cbn [deeds] in E2, Lvf. unfold put in HSp, HT. cbn [fst snd] in HSp, HT.
  destruct (do (On order2 img (APut ft ow addr n2 src)) (SPlan p2) K2) as [K3 out2] eqn:DP. cbn [fst] in Lvf.
  destruct (deeds h3 K3) as [K4 l3'] eqn:D3. injection E2 as -> E2.
  apply app_split in E2 as [_ E2]; [|lia]. injection E2 as -> E2. apply app_split in E2 as [_ E2]; [|lia]. injection E2 as -> _.
  (* the loader *)
  destruct (hello_leaves _ _ _ _ _ _ _ _ _ _ HSh DH) as (Hp & Hst & Hl & x1 & X1 & F1). change (if s0 =? 65535 then a else s0) with start in F1, Hst.
  assert (EK : fst (deeds (h2 ++ put :: h3) K1) = K').
  { rewrite deeds_app, D2. unfold put. cbn [deeds]. rewrite DP, D3. reflexivity. }
  destruct (deeds_leave 1 img _ _ _ Lv1 X1) as (x' & X' & F'). rewrite EK in X'.
  (* the program *)
  assert (HF2 : w_fs w2 src = sh_files K2 src).
  { apply (sw_files _ _ HS2). inversion HSp as [order' img' a' p' x HX Hd' Hf HP Hfo| | | |]; subst order' img' a' p'. exact Hfo. }
  destruct (put_reads _ _ _ _ _ _ _ _ _ _ _ HSp DP) as (data' & q' & HF3). rewrite HF2, HF3 in HF. injection HF as -> <- <-.
  destruct (put_leaves _ _ _ _ _ _ _ _ _ _ _ _ _ _ HSp DP HT HF3) as (x3 & X3 & F3).
  destruct (deeds_leave f img _ _ _ Lvf X3) as (x'' & X'' & F''). rewrite D3 in X''. cbn [fst] in X''. rewrite X' in X''. injection X'' as <-.
  rewrite F1 in F'. rewrite F3 in F''.
  destruct (sw_disks _ _ HS' img x' X') as (c & Hc & Hdk).
  destruct (disk_starts _ _ _ _ f a start Hdk F' Hl N3 N4 Hp Hst) as (d & Hn & Hr); [unfold in_use; rewrite F'', (padded_ne _ Hd); reflexivity|exact Ha|rewrite F''; exact Hend|].
  rewrite F'' in Hr. exists c, (kp_order x'), d. split; [exact Hc|]. split; assumption.
Qed.
