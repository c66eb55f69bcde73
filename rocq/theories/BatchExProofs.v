(** BatchExProofs.v -- examples for property C115. *)
From Coq Require Import ZifyBool ZifyNat Permutation.
From Verif Require Import GoBase GoLemmas TypesModel DiskModel DiskSpec DiskProofs.
From Verif Require Import SupermonModel SupermonSpec SupermonTableSpec SupermonStoreSpec SupermonProofs SupermonSymProofs SupermonTabProofs SupermonOpProofs SupermonNameProofs SupermonFinalProofs.
From Verif Require Import ProdosModel CmdModel CmdSpec CmdProofs MainModel NakedCmdSpec NakedCmdProofs NakedOpenProofs NakedExProofs AfterProofs AfterExProofs SessionSpec SessionProofs SessionExProofs LawsExProofs BatchSpec BatchProofs.
Ltac Zify.zify_post_hook ::= Z.div_mod_to_equations.
Local Opaque zrange zeros sub.

(** A disk without symbols, all data zero, and a file to put. *)
Definition filler : bytes := repeat 7 300.
Lemma batch_session iter fuel sm c h st : same_store (store_of (map_disk sm) sm) st -> zlen sm = 560 -> floppy (map_disk sm) sm -> owned sm 3 = [] -> naked_image c (s2b "do") (map_disk sm) ->
  Forall (fun af => meant [] (s2b "x.do") (fst af) (snd af)) h ->
  Forall (fun af : action * option Z => match fst af with ASave _ c => no_mark c | APut _ _ _ _ src => src <> s2b "x.do" | _ => True end) h ->
  let w := NakedExProofs.two_files (s2b "x.do") c (s2b "f") filler in
  throughout (unmarked (s2b "x.do")) (map (fun af => command iter fuel (s2b "auto") (s2b "x.do") (fst af)) h) w /\
  exists w', session (map (fun af => command iter fuel (s2b "auto") (s2b "x.do") (fst af)) h) w = (w', snd (acts [] h (Desk (w_fs w) st))).
Proof.
  intros Hst HL Hf H3 Hc HM HS w. pose proof (fl_map _ _ Hf) as Em.
  remember (Desk (w_fs w) st) as k eqn:Ek.
  pose proof (C95_lemma iter fuel (s2b "auto") (s2b "x.do") (s2b "do") [] h w c (map_disk sm) k) as HL0.
  pose proof (C95_harmless_lemma iter fuel (s2b "auto") (s2b "x.do") (s2b "do") [] h w c (map_disk sm) k) as HH.
  repeat match type of HL0 with ?P -> _ => match type of HH with P -> _ => let X := fresh "X" in assert (X : P); [clear HL0 HH|specialize (HL0 X); specialize (HH X)] end end.
  - discriminate.
  - apply first_do.
  - intros i f Hi. rewrite (@zlen_nil Symbol) in Hi. lia.
  - reflexivity.
  - exact Hc.
  - eexists. split; [apply (NewOperator_floppy _ _ Hf)|]. unfold st_of. cbn [op_ST]. rewrite (no_table _ _ Hf H3). reflexivity.
  - reflexivity.
  - reflexivity.
  - intros n _. rewrite Ek. reflexivity.
  - rewrite Ek, Em. exact Hst.
  - exact HM.
  - assert (HT : throughout (unmarked (s2b "x.do")) (map (fun af => command iter fuel (s2b "auto") (s2b "x.do") (fst af)) h) w).
    { apply HH.
      - rewrite <- (release_same _ _ _ _ (proj1 Hc)). unfold release_byte. rewrite map_disk_sector by exact HL. rewrite znth_zeros; lia.
      - apply (harmless_saved _ (s2b "x.do")); [|exact HS]. intros n data r q Hn E. rewrite Ek in E. cbn [k_files] in E. unfold w, NakedExProofs.two_files in E. cbn [w_fs] in E.
        apply beq_neq in Hn. rewrite Hn in E. destruct (beq n (s2b "f")); [|discriminate E]. injection E as <- _ _. apply no_mark_repeat. lia. }
    split; [exact HT|]. destruct (HL0 HT) as (w' & k' & l & c' & d' & Es & Ea & _). exists w'. rewrite Es, Ea. reflexivity.
Qed.

(** Two puts and a removal. *)
Definition three : list (action * option Z) :=
  [(APut (s2b "B") false 0 (s2b "DF06") (s2b "f"), Some 6); (APut (s2b "B") false 0 (s2b "1a") (s2b "f"), Some 26); (ARm false (s2b "5"), Some 5)].
Lemma names_three : numeric (s2b "DF06") 6 /\ numeric (s2b "1a") 26 /\ numeric (s2b "5") 5.
Proof. split; [|split]; (apply numeric_parse; [vm_compute; reflexivity|lia]). Qed.
Lemma meant_put n f ow : numeric n f -> f <> 3 -> f <> 4 -> meant [] (s2b "x.do") (APut (s2b "B") ow 0 n (s2b "f")) (Some f).
Proof. intros H H3 H4. constructor; [left; exact H|left; exact H|exact H3|exact H4|discriminate|discriminate]. Qed.
Lemma other_owned sm a f : Forall (fun x => x = FREE \/ x = RESERVED \/ x = a) sm -> zlen sm = 560 -> legal f -> f <> a -> owned sm f = [].
Proof.
  intros HF HL Hf Ha. destruct (owned sm f) as [|k l] eqn:E; [reflexivity|]. assert (Hk : In k (owned sm f)) by (rewrite E; left; reflexivity).
  apply In_owned in Hk as [Hk Ek]. rewrite Forall_forall in HF. destruct (HF f) as [X|[X|X]]; [rewrite <- Ek; apply znth_In; lia| | |contradiction]; unfold legal, FREE, RESERVED in *; lia.
Qed.
Lemma simple_map sm a : forallb (fun x => (x =? FREE) || (x =? RESERVED) || (x =? a)) sm = true -> Forall (fun x => x = FREE \/ x = RESERVED \/ x = a) sm.
Proof. intros H. apply Forall_forall. intros x Hx. rewrite forallb_forall in H. specialize (H x Hx). lia. Qed.
Definition one_store (a : Z) (X : bytes) (free : Z) : store := St (fun f => if f =? a then X else []) free.
Lemma simple_store d sm a : forallb (fun x => (x =? FREE) || (x =? RESERVED) || (x =? a)) sm = true -> zlen sm = 560 ->
  same_store (store_of d sm) (one_store a (content d sm a) (zlen (owned sm FREE))).
Proof.
  intros HS HL. split; [|reflexivity]. intros f Hf. cbn [store_of one_store st_file]. destruct (Z.eqb_spec f a) as [->|Ha]; [reflexivity|].
  unfold content. rewrite (other_owned sm a f (simple_map _ _ HS) HL Hf Ha). reflexivity.
Qed.
Lemma five_store : same_store (store_of (map_disk five_map) five_map) (one_store 5 (zeros 256) 547).
Proof.
  pose proof (simple_store (map_disk five_map) five_map 5 ltac:(vm_compute; reflexivity) eq_refl) as H. rewrite (proj2 five_content) in H.
  assert (zlen (owned five_map FREE) = 547) as E by (vm_compute; reflexivity). rewrite E in H. exact H.
Qed.
Lemma no_names sm : floppy (map_disk sm) sm -> owned sm 3 = [] -> names_on (map_disk sm) [].
Proof. intros Hf H3. eexists. split; [apply (NewOperator_floppy _ _ Hf)|]. unfold st_of. cbn [op_ST]. rewrite (no_table _ _ Hf H3). reflexivity. Qed.
Lemma batch_three : batch three.
Proof.
  split; [repeat (apply Forall_cons || apply Forall_nil); (split; [exact I|discriminate])|]. cbn [three map snd]. repeat constructor; cbn [In]; intuition discriminate.
Qed.
Lemma meant_three : Forall (fun af => meant [] (s2b "x.do") (fst af) (snd af)) three.
Proof.
  destruct names_three as (N6 & N26 & N5). repeat (apply Forall_cons || apply Forall_nil); cbn [fst snd]; [apply meant_put; [exact N6|lia|lia]|apply meant_put; [exact N26|lia|lia]|constructor; [exact N5|lia|lia]].
Qed.
Lemma other_three : Forall (fun af : action * option Z => match fst af with ASave _ c => no_mark c | APut _ _ _ _ src => src <> s2b "x.do" | _ => True end) three.
Proof. repeat (apply Forall_cons || apply Forall_nil); cbn [fst]; try exact I; discriminate. Qed.
Lemma batch_example iter fuel : exists w c,
  w_fs w (s2b "x.do") = NFile c true true /\ naked_image c (s2b "do") (map_disk five_map) /\ names_on (map_disk five_map) [] /\ w_room w = None /\ w_outroom w = None /\
  batch three /\ Forall (fun af => meant [] (s2b "x.do") (fst af) (snd af)) three /\
  forall h, In h [three; rev three] ->
    throughout (unmarked (s2b "x.do")) (map (fun af => command iter fuel (s2b "auto") (s2b "x.do") (fst af)) h) w /\
    all_well (snd (session (map (fun af => command iter fuel (s2b "auto") (s2b "x.do") (fst af)) h) w)).
Proof.
  destruct (do_image _ _ five_floppy) as [c Hc]. assert (O3 : owned five_map 3 = []) by (vm_compute; reflexivity).
  exists (NakedExProofs.two_files (s2b "x.do") c (s2b "f") filler), c.
  split; [reflexivity|]. split; [exact Hc|]. split; [apply (no_names _ five_floppy O3)|]. split; [reflexivity|]. split; [reflexivity|].
  split; [exact batch_three|]. split; [exact meant_three|].
  assert (forall l, l = [(0, []); (0, []); (0, [])] -> all_well l) as W by (intros l ->; repeat constructor).
  intros h [<-|[<-|[]]].
  - destruct (batch_session iter fuel five_map c three _ five_store eq_refl five_floppy O3 Hc meant_three other_three) as (T1 & w1 & E1). split; [exact T1|]. rewrite E1. apply W.
    cbn [snd NakedExProofs.two_files w_fs]. generalize (NFile c true true). intros nd. vm_compute. reflexivity.
  - destruct (batch_session iter fuel five_map c (rev three) _ five_store eq_refl five_floppy O3 Hc (Forall_rev meant_three) (Forall_rev other_three)) as (T1 & w1 & E1). split; [exact T1|]. rewrite E1. apply W.
    cbn [snd NakedExProofs.two_files w_fs]. generalize (NFile c true true). intros nd. vm_compute. reflexivity.
Qed.
(** Two growing files. *)
Definition two : list (action * option Z) :=
  [(APut (s2b "B") true 0 (s2b "5") (s2b "f"), Some 5); (APut (s2b "B") false 0 (s2b "1a") (s2b "f"), Some 26)].
Lemma meant_two : Forall (fun af => meant [] (s2b "x.do") (fst af) (snd af)) two.
Proof. destruct names_three as (_ & N26 & N5). repeat (apply Forall_cons || apply Forall_nil); cbn [fst snd]; apply meant_put; (assumption || lia). Qed.
Lemma growing_example iter fuel : exists w c,
  w_fs w (s2b "x.do") = NFile c true true /\ naked_image c (s2b "do") (map_disk five_map) /\ names_on (map_disk five_map) [] /\ w_room w = None /\ w_outroom w = None /\
  batch two /\ Forall (fun af => meant [] (s2b "x.do") (fst af) (snd af)) two /\ growing (w_fs w) (map_disk five_map) two /\
  throughout (unmarked (s2b "x.do")) (map (fun af => command iter fuel (s2b "auto") (s2b "x.do") (fst af)) two) w /\
  throughout (unmarked (s2b "x.do")) (map (fun af => command iter fuel (s2b "auto") (s2b "x.do") (fst af)) (rev two)) w /\
  all_well (snd (session (map (fun af => command iter fuel (s2b "auto") (s2b "x.do") (fst af)) two) w)).
Proof.
  destruct (do_image _ _ five_floppy) as [c Hc]. assert (O3 : owned five_map 3 = []) by (vm_compute; reflexivity).
  exists (NakedExProofs.two_files (s2b "x.do") c (s2b "f") filler), c.
  split; [reflexivity|]. split; [exact Hc|]. split; [apply (no_names _ five_floppy O3)|]. split; [reflexivity|]. split; [reflexivity|].
  split; [split; [repeat (apply Forall_cons || apply Forall_nil); (split; [exact I|discriminate])|cbn [two map snd]; repeat constructor; cbn [In]; intuition discriminate]|].
  split; [exact meant_two|].
  assert (HS : Forall (fun af : action * option Z => match fst af with ASave _ c => no_mark c | APut _ _ _ _ src => src <> s2b "x.do" | _ => True end) two).
  { repeat (apply Forall_cons || apply Forall_nil); cbn [fst]; discriminate. }
  split.
  { assert (Hn : nsec filler = 2) by (vm_compute; reflexivity).
    intros a f [X|[X|[]]]; injection X as <- <-; eexists _, _, _, _, _, filler, true, true; (split; [reflexivity|]); (split; [reflexivity|]); (split; [discriminate|]);
      rewrite Hn; unfold sectors_on; rewrite (fl_map _ _ five_floppy); vm_compute; discriminate. }
  destruct (batch_session iter fuel five_map c two _ five_store eq_refl five_floppy O3 Hc meant_two HS) as (T1 & w1 & E1).
  destruct (batch_session iter fuel five_map c (rev two) _ five_store eq_refl five_floppy O3 Hc (Forall_rev meant_two) (Forall_rev HS)) as (T2 & w2 & E2).
  split; [exact T1|]. split; [exact T2|]. rewrite E1. assert (forall l, l = [(0, []); (0, [])] -> all_well l) as W by (intros l ->; repeat constructor). apply W.
  cbn [snd NakedExProofs.two_files w_fs]. generalize (NFile c true true). intros nd. vm_compute. reflexivity.
Qed.
(** A full disk: the file has to be removed first. *)
Definition full_map : bytes := repeat 254 12 ++ repeat 5 548.
Lemma full_floppy : floppy (map_disk full_map) full_map.
Proof. apply map_disk_floppy; [reflexivity|vm_compute; reflexivity]. Qed.
Definition swap_files : list (action * option Z) :=
  [(ARm false (s2b "5"), Some 5); (APut (s2b "B") false 0 (s2b "DF06") (s2b "f"), Some 6)].
Lemma full_acts files X : zlen X = 256 * 548 -> files (s2b "f") = NFile filler true true ->
  snd (acts [] swap_files (Desk files (one_store 5 X 0))) = [(0, []); (0, [])] /\ snd (acts [] (rev swap_files) (Desk files (one_store 5 X 0))) = [(1, []); (0, [])].
Proof.
  intros EL HF.
  assert (EU : in_use (one_store 5 X 0) 5 = true).
  { unfold in_use, one_store. cbn [st_file Z.eqb Pos.eqb]. destruct (beq X []) eqn:B; [apply beq_eq in B; subst X; discriminate EL|reflexivity]. }
  assert (Hn : nsec filler = 2) by (vm_compute; reflexivity). assert (Hb : binary (s2b "B") = true) by (vm_compute; reflexivity).
  unfold swap_files. cbn [rev app]. cbn [acts]. split.
  - cbn [act k_store k_files]. rewrite EU. cbn [orb act k_store k_files]. rewrite HF, Hb. unfold SessionSpec.put_status, st_used, in_use. cbn [st_set st_file st_free one_store Z.eqb Pos.eqb]. rewrite EL, Hn. reflexivity.
  - cbn [act k_store k_files]. rewrite HF, Hb. assert (EP : SessionSpec.put_status (one_store 5 X 0) 6 filler false = 1).
    { unfold SessionSpec.put_status, st_used. cbn [one_store st_file st_free Z.eqb Pos.eqb]. rewrite Hn. reflexivity. }
    rewrite EP. change (1 =? 0) with false. cbv iota. cbn [k_store k_files]. rewrite EU. cbn [orb]. cbv iota beta zeta. reflexivity.
Qed.
Lemma full_free : zlen (owned full_map FREE) = 0 /\ zlen (owned full_map 5) = 548 /\ owned full_map 3 = [] /\ zlen full_map = 560.
Proof. repeat split; vm_compute; reflexivity. Qed.
Lemma full_simple : forallb (fun x => (x =? FREE) || (x =? RESERVED) || (x =? 5)) full_map = true.
Proof. vm_compute. reflexivity. Qed.
Lemma full_store : exists X, zlen X = 256 * 548 /\ same_store (store_of (map_disk full_map) full_map) (one_store 5 X 0).
Proof.
  destruct full_free as (F0 & F5 & _ & FL). exists (content (map_disk full_map) full_map 5).
  split; [rewrite zlen_content by apply (fl_len _ _ full_floppy); rewrite F5; reflexivity|]. rewrite <- F0. apply (simple_store _ _ _ full_simple FL).
Qed.
Lemma full_example iter fuel : exists w,
  snd (session (map (fun af => command iter fuel (s2b "auto") (s2b "x.do") (fst af)) swap_files) w) = [(0, []); (0, [])] /\
  snd (session (map (fun af => command iter fuel (s2b "auto") (s2b "x.do") (fst af)) (rev swap_files)) w) = [(1, []); (0, [])].
Proof.
  destruct (do_image _ _ full_floppy) as [c Hc]. destruct full_free as (_ & _ & O3 & FL). destruct names_three as (N6 & _ & N5).
  exists (NakedExProofs.two_files (s2b "x.do") c (s2b "f") filler).
  assert (HM : Forall (fun af => meant [] (s2b "x.do") (fst af) (snd af)) swap_files).
  { repeat (apply Forall_cons || apply Forall_nil); cbn [fst snd]; [constructor; [exact N5|lia|lia]|apply meant_put; [exact N6|lia|lia]]. }
  assert (HS : Forall (fun af : action * option Z => match fst af with ASave _ c => no_mark c | APut _ _ _ _ src => src <> s2b "x.do" | _ => True end) swap_files).
  { repeat (apply Forall_cons || apply Forall_nil); cbn [fst]; try exact I; discriminate. }
  destruct full_store as (X & EL & Hst).
  destruct (batch_session iter fuel full_map c swap_files _ Hst FL full_floppy O3 Hc HM HS) as (_ & w1 & E1).
  destruct (batch_session iter fuel full_map c (rev swap_files) _ Hst FL full_floppy O3 Hc (Forall_rev HM) (Forall_rev HS)) as (_ & w2 & E2).
  rewrite E1, E2. cbn [snd]. apply full_acts; [exact EL|reflexivity].
Qed.
