(** ShelfProofs.v -- sessions on several images refine a shelf of disks (C117). *)
From Coq Require Import ZifyBool ZifyNat.
From Verif Require Import GoBase GoLemmas TypesModel DiskModel DiskSpec DiskProofs DiskOpenProofs.
From Verif Require Import SupermonModel SupermonSpec SupermonTableSpec SupermonStoreSpec SupermonProofs SupermonOpProofs SupermonChainSpec SupermonChainProofs SupermonNamedProofs SupermonFinalProofs.
From Verif Require Import ProdosModel CmdModel CmdSpec CmdProofs CmdStmtProofs MainModel NakedCmdSpec NakedCmdProofs NakedOpenProofs DetectSpec AfterProofs SessionSpec SessionProofs MarkProofs NamesSpec NamesProofs.
From Verif Require SpellCmdProofs ReorderProofs.
From Verif Require Import RestSpec ShelfSpec.
Ltac Zify.zify_post_hook ::= Z.div_mod_to_equations.
Local Opaque zrange zeros sub.

(** An action depends on the files of the board only through the file that is put, and leaves them. *)
Lemma act2_frame a p F F' s l : match a with APut _ _ _ _ src => F src = F' src | ASave _ _ => False | _ => True end ->
  snd (act2 a p (Board F s l)) = snd (act2 a p (Board F' s l)) /\
  b_store (fst (act2 a p (Board F s l))) = b_store (fst (act2 a p (Board F' s l))) /\
  b_cards (fst (act2 a p (Board F s l))) = b_cards (fst (act2 a p (Board F' s l))) /\
  b_files (fst (act2 a p (Board F s l))) = F.
Proof.
  destruct a as [ft ow addr n src|force n|n|short|file c]; intros H; [| | | |contradiction H]; cbn [act2 b_files b_store b_cards].
  - rewrite H. destruct (F' src) as [| |data [|] wr|]; try (repeat split; reflexivity).
    destruct (goal p s) as [[f q]|]; [|repeat split; reflexivity]. destruct (binary ft); [|repeat split; reflexivity].
    destruct (put_status s f data ow =? 0); [|repeat split; reflexivity]. destruct (bind l q (57088 + f)); repeat split; reflexivity.
  - destruct (goal p s) as [[f q]|]; [|repeat split; reflexivity]. destruct (in_use s f || force); repeat split; reflexivity.
  - destruct (goal p s) as [[f q]|]; repeat split; reflexivity.
  - repeat split; reflexivity.
Qed.
Lemma target_keys t t' n f : cards_of t = cards_of t' -> target t n f -> target t' n f.
Proof.
  intros E [n0 f0 C R|p q f0 Cp Cq N M]; [apply tg_plain; [exact C|exact (resolves_keys _ _ _ _ E R)]|apply tg_compound; assumption].
Qed.

Section Shelf.
  Context (iter : list (Z * Subdirectory) -> list (Z * Subdirectory)) (fuel : nat).
  Context (B : Prop) (gm : Z) (Hgm : B -> gm <> FREE /\ gm <> 3 /\ gm <> 4).

  (** mkhello against a board. *)
  Lemma hello_refines order img od n a s0 f p w k : first_order img order od -> img <> s2b "-" ->
    on_board img od B gm w k -> unmarked img w -> w_stdout w = [] ->
    0 <= a < 65536 -> 0 <= s0 < 65536 -> target (table_of (b_cards k)) n f -> planned (b_cards k) (b_store k) img (loader_put img) p ->
    (B -> touched (loader_put img) p (b_store k) <> Some gm) ->
    let start := if s0 =? 0xFFFF then a else s0 in a mod 256 = 0 -> a <= start ->
    let r := act2 (loader_put img) p (Board (fun _ => NFile (loader f a start) true true) (b_store k) (b_cards k)) in
    exists w', main_run (MkHelloCmd_Run iter fuel order img n a s0) w = (w', fst (snd r)) /\
      w_stdout w' = snd (snd r) /\ on_board img od B gm w' (Board (b_files k) (b_store (fst r)) (b_cards (fst r))).
  Proof.
    intros Hio Himg HB Hu Hw0 Ha H0 HT Hp Htouch start Hpage Hst. cbv zeta.
    destruct (board_open iter fuel order img od Hio Himg B gm w k HB Hu) as (c & op & t & m & ch & Hc & Hn & Hok & Est & Hd & Hk & HS & Hnn & Hn0 & Hwat & Er).
    assert (Hkt : cards_of (table_of (b_cards k)) = cards_of t) by (rewrite table_cards, Hk; reflexivity).
    destruct (tail_planned img op t m ch k (s2b "B") true 0 (s2b "DF01:FHELLO") (32 :: img) p Est Hd Hk HS Hp) as (Htail & _ & _).
    assert (Hl : legal f) by (destruct HT as [? ? ? [R|[_ R]]|? ? ? ? ? R _]; apply R).
    destruct (SpellCmdProofs.target_load _ _ _ (target_keys _ _ _ _ Hkt HT)) as (nf & mf & q & EL & ->).
    assert (Hs16 : 0 <= start < 65536) by (unfold start; destruct (s0 =? 65535); lia).
    assert (Hh : hello_program f a start = loader f a start).
    { unfold hello_program, loader, u8. rewrite (Z.mod_small (a / 256)) by lia. rewrite (Z.mod_small (start / 256)) by lia. reflexivity. }
    unfold main_run, MkHelloCmd_Run. cbv zeta. change (if s0 =? 65535 then a else s0) with start.
    rewrite Hpage. change (negb (0 =? 0)) with false. cbv iota. replace (start <? a) with false by lia.
    rewrite run_pbind, Er, run_pbind. unfold plift at 1. assert (Est' : st_of op = t) by (unfold st_of; rewrite Est; reflexivity). rewrite Est', EL. cbn [run].
    unfold legal in Hl. replace (f =? 0) with false by lia. cbn [andb]. rewrite Hh. cbn [Op_PutFile].
    unfold loader_put. cbn [act2 b_files b_store b_cards]. change (binary (s2b "B")) with true. cbv iota.
    assert (forall (b : board * (Z * bytes)), snd b = (1, []) -> b_store (fst b) = b_store k -> b_cards (fst b) = b_cards k ->
      exists w', (w, 1) = (w', fst (snd b)) /\ w_stdout w' = snd (snd b) /\ on_board img od B gm w' (Board (b_files k) (b_store (fst b)) (b_cards (fst b)))) as Hfail.
    { intros b E1 E2 E3. exists w. rewrite E1, E2, E3. split; [reflexivity|split; [exact Hw0|]]. destruct HB as [Y1 Y2 Y3 Y4]. split; assumption. }
    unfold tail_of in Htail. unfold loader_put in Htouch. cbn [touched] in Htouch.
    destruct (goal p (b_store k)) as [[g sy]|]; cbn [option_map fst] in Htouch.
    2:{ match goal with |- context [PutFile ?i0 true op] => destruct (Htail i0 true eq_refl eq_refl eq_refl) as (op' & e & ->) end.
        cbn [lift_op]. rewrite run_pbind. unfold plift. cbn [run]. apply Hfail; reflexivity. }
    destruct Htail as (Hf & N3 & N4 & named & n' & Hbind & Hnamed & Hput). rewrite Hk in Hbind. rewrite <- Hbind.
    match goal with |- context [PutFile ?i0 true op] => rewrite (Hput i0 true eq_refl eq_refl eq_refl) end. cbn [fi_data].
    pose proof (put_holds op t m ch (b_store k) g (loader f a start) true named n' Est Hd HS Hnn Hn0 Hf N3 N4 Hnamed) as HP. rewrite Hk in HP.
    remember (if named then bind (b_cards k) n' (0xDF00 + g) else Some (b_cards k)) as l eqn:El. clear El Hbind Hput. pose proof (td_fl _ _ _ _ Hd) as Hfl. cbn [fst snd] in Hfl.
    destruct (put_tail g (loader f a start) true named n' op) as [op' [b|e|]] eqn:EPT; cbn [lift_op]; rewrite run_pbind; unfold plift; cbn [run].
    - destruct HP as (-> & l' & -> & Hh'). cbn [Z.eqb].
      destruct (board_write img od Himg B gm w k c op' _ _ l' HB Hc Hn Hh') as (w' & Ew & HB' & Ho).
      { intros b0. destruct (Hwat b0) as [W1 W2]. destruct (Hgm b0) as (G1 & G2 & G3).
        destruct (put_tail_spares g (loader f a start) true named n' op op' b gm (fl_len _ _ Hfl) (v_len _ (fl_ver _ _ Hfl)) Hf EPT W2 G1 G2 G3) as [K1 K2];
          [intros E; apply (Htouch b0); rewrite E; reflexivity|]. rewrite K2. split; [exact W1|exact K1]. }
      exists w'. rewrite Ew. cbn [fst snd b_store b_cards].
      split; [reflexivity|]. split; [congruence|exact HB'].
    - destruct HP as [->|[-> ->]]; cbn [Z.eqb Pos.eqb]; apply Hfail; reflexivity.
    - exfalso. revert HP. unfold put_status. destruct (_ <? _); [discriminate|]. cbn [negb]. rewrite andb_false_r. unfold loader at 1. cbn [beq andb]. discriminate.
  Qed.

  (** ** Many images *)
  Record shelved (w : world) (K : shelf) : Prop := {
    sv_disks : forall img x, sh_disks K img = Some x ->
      exists c d, w_fs w img = NFile c true true /\ naked_image c (kp_order x) d /\ NamesProofs.holds (d, stored_map d) (kp_store x) (kp_cards x) /\ watched B gm d (stored_map d);
    sv_files : forall n, sh_disks K n = None -> w_fs w n = sh_files K n;
    sv_room : w_room w = None;
    sv_out : w_outroom w = None
  }.
  Lemma shelved_quiet w K : shelved w K -> shelved (quiet w) K.
  Proof. intros [H1 H2 H3 H4]. split; assumption. Qed.
  Lemma shelved_board w K img x : shelved w K -> sh_disks K img = Some x -> on_board img (kp_order x) B gm w (Board (w_fs w) (kp_store x) (kp_cards x)).
  Proof. intros [H1 H2 H3 H4] E. split; [exact (H1 _ _ E)|reflexivity|exact H3|exact H4]. Qed.
  Lemma board_shelved w w' K img x k : shelved w K -> sh_disks K img = Some x -> on_board img (kp_order x) B gm w' (Board (w_fs w) (b_store k) (b_cards k)) ->
    shelved w' (shelve K img (on_kept x k)).
  Proof.
    intros [H1 H2 H3 H4] E [G1 G2 G3 G4]. cbn [b_files b_store b_cards] in *. split; [| |exact G3|exact G4]; cbn [shelve sh_disks sh_files].
    - intros i y. destruct (beq i img) eqn:Ei.
      + apply beq_eq in Ei. subst i. intros X. injection X as <-. exact G1.
      + intros X. rewrite (G2 i (proj1 (beq_neq _ _) Ei)). exact (H1 _ _ X).
    - intros i. destruct (beq i img) eqn:Ei; [discriminate|]. intros X. rewrite (G2 i (proj1 (beq_neq _ _) Ei)). exact (H2 _ X).
  Qed.
  (** A disk written over an image or where there is no file. *)
  Lemma write_shelved w K new x c d : shelved w K -> vacant K new ->
    naked_image c (kp_order x) d -> NamesProofs.holds (d, stored_map d) (kp_store x) (kp_cards x) -> watched B gm d (stored_map d) ->
    exists w', run (PWrite new c PRet) w = (w', Ok tt) /\ w_stdout w' = w_stdout w /\ shelved w' (shelve K new x).
  Proof.
    intros HV Hva H1 H2 H3. cbn [run]. unfold sys_write.
    assert (HC : can_write (w_fs w new) = true /\ written (w_fs w new) c = NFile c true true).
    { destruct (sh_disks K new) as [y|] eqn:E.
      - destruct (sv_disks _ _ HV new y E) as (c2 & d2 & -> & _). split; reflexivity.
      - destruct Hva as [X|X]; [contradiction (X E)|]. rewrite (sv_files _ _ HV new E), X. split; reflexivity. }
    destruct HC as [-> ->]. rewrite (sv_room _ _ HV). cbn [fits]. eexists. split; [reflexivity|]. split; [reflexivity|].
    destruct HV as [V1 V2 V3 V4]. split; [| |exact V3|exact V4]; cbn [shelve sh_disks sh_files set_fs w_fs].
    - intros i y. destruct (beq i new) eqn:Ei; [|intros X; exact (V1 _ _ X)]. intros X. injection X as <-.
      exists c, d. split; [reflexivity|]. split; [exact H1|]. split; [exact H2|exact H3].
    - intros i. destruct (beq i new) eqn:Ei; [discriminate|]. intros X. exact (V2 _ X).
  Qed.
  Lemma turned_order x t : other_order (kp_order x) t -> kp_order (turned x) = t.
  Proof. unfold turned. cbn [kp_order]. intros H. inversion H as [E1 E2|E1 E2]; reflexivity. Qed.
  Lemma shelved_same w w1 K : same_files w w1 -> w_room w1 = w_room w -> w_outroom w1 = w_outroom w -> shelved w K -> shelved w1 K.
  Proof.
    intros Q1 Q3 Q4 [V1 V2 V3 V4]. split; [| |congruence|congruence].
    - intros i y X. destruct (V1 i y X) as (c1 & d1 & R1). exists c1, d1. rewrite Q1. exact R1.
    - intros i X. rewrite Q1. exact (V2 i X).
  Qed.
  Lemma deed_refines x m w K : shelved w K -> unmarked_for x w -> w_stdout w = [] -> sound K x m ->
    (B -> file_touched x m K <> Some gm) ->
    exists w', main_run (deed_command iter fuel x) w = (w', fst (snd (do x m K))) /\
      w_stdout w' = snd (snd (do x m K)) /\ shelved w' (fst (do x m K)).
  Proof.
    intros HV Hu Hw0 Hs Htouch. destruct Hs as [order img a p x Hk Himg Hio Hp Hout|order img n a s0 f p x Hk Himg Hio Ha H0 HT Hp|a b ow img new m x t Hk Himg Hnew Fa Fb HO Hva|img new m x Hk Himg Hva|file c m Hk].
    - cbn [deed_command do unmarked_for file_touched] in *. rewrite Hk in *.
      assert (HB := shelved_board _ _ _ _ HV Hk).
      destruct (command_refines2 iter fuel order img (kp_order x) Hio Himg B gm Hgm a p w _ HB Hu Hw0 Hp Htouch) as (w' & Er & Ho & HB').
      destruct (act2_frame a p (w_fs w) (sh_files K) (kp_store x) (kp_cards x)) as (E1 & E2 & E3 & E4).
      { destruct a as [ft ow addr n src|force n|n|short|file c]; try exact I; [|exact Hout]. exact (sv_files _ _ HV src Hout). }
      exists w'. rewrite E1 in Er, Ho.
      destruct (act2 a p (Board (sh_files K) (kp_store x) (kp_cards x))) as [k' out]. destruct (act2 a p (Board (w_fs w) (kp_store x) (kp_cards x))) as [k1 out1]. cbn [fst snd] in *.
      split; [exact Er|]. split; [exact Ho|]. apply (board_shelved w w' K img x); [exact HV|exact Hk|]. rewrite <- E2, <- E3, <- E4. destruct k1. exact HB'.
    - cbn [deed_command do unmarked_for file_touched] in *. rewrite Hk in *. cbv zeta. remember (if s0 =? 65535 then a else s0) as start eqn:Est.
      assert (HB := shelved_board _ _ _ _ HV Hk).
      destruct ((a mod 256 =? 0) && (a <=? start)) eqn:E.
      + pose proof (hello_refines order img (kp_order x) n a s0 f p w _ Hio Himg HB Hu Hw0 Ha H0 HT Hp Htouch) as HL. cbv zeta in HL. rewrite <- Est in HL.
        destruct (HL ltac:(lia) ltac:(lia)) as (w' & Er & Ho & HB'). clear HL. cbn [b_files b_store b_cards] in *. exists w'.
        destruct (act2 (loader_put img) p (Board (fun _ => NFile (loader f a start) true true) (kp_store x) (kp_cards x))) as [k' out]. cbn [fst snd] in *.
        split; [exact Er|]. split; [exact Ho|]. apply (board_shelved w w' K img x); [exact HV|exact Hk|exact HB'].
      + exists w. split; [|split; [exact Hw0|exact HV]]. unfold main_run, MkHelloCmd_Run. cbv zeta. rewrite <- Est.
        destruct (a mod 256 =? 0) eqn:E1; cbn [negb]; [|reflexivity]. cbn [andb] in E. replace (start <? a) with true by lia. reflexivity.
    - cbn [deed_command do]. rewrite Hk. destruct (sv_disks _ _ HV img x Hk) as (c & d & Hc & Hd & Hh & HW).
      destruct (C66_lemma img a new b Fa Fb) as (G1 & _ & G3). assert (HG : getOrders img a new b = Ok (kp_order x, t)) by (apply G1; exact HO).
      destruct (G3 _ _ HG) as (Hoo & _).
      destruct (reorder_run_do a b ow img new w (kp_order x) t c HG Hoo) as (w1 & c' & Q1 & Q2 & Q3 & Q4 & Hre & Er); [right; split; [exact Himg|exists true; exact Hc]|apply (proj1 Hd)|].
      assert (Hd' : naked_image c' (kp_order (turned x)) d) by (rewrite (turned_order x t Hoo); split; [exact (ReorderProofs.reordered_through _ _ _ _ _ _ Hre (proj1 Hd))|apply Hd]).
      pose proof (shelved_same w w1 K Q1 Q3 Q4 HV) as HV1. unfold main_run. rewrite Er.
      assert (HW1 : forall n, vacant K n -> exists w', (let '(w'0, r) := run (PWrite n c' PRet) w1 in (w'0, main_status r)) = (w', 0) /\ w_stdout w' = [] /\ shelved w' (shelve K n (turned x))).
      { intros n Hn. destruct (write_shelved w1 K n (turned x) c' d HV1 Hn Hd' Hh HW) as (w' & E1 & E2 & E3). exists w'. rewrite E1. split; [reflexivity|]. split; [congruence|exact E3]. }
      destruct (beq new []) eqn:En.
      + apply beq_eq in En. subst new. cbn [reorder_target]. unfold WriteOutput. change dash with (s2b "-"). rewrite (proj2 (beq_neq _ _) Himg).
        destruct (HW1 img) as (w' & X1 & X2 & X3); [left; rewrite Hk; discriminate|]. exists w'. cbn [fst snd]. split; [exact X1|]. split; [exact X2|exact X3].
      + apply beq_neq in En. destruct Hva as [X|Hva]; [contradiction (En X)|].
        assert (Ent : reorder_target img new = new) by (destruct new; [contradiction En; reflexivity|reflexivity]).
        assert (Eow : match new with [] => true | _ => ow end = ow) by (destruct new; [contradiction En; reflexivity|reflexivity]).
        rewrite Ent, Eow. unfold WriteOutput. change dash with (s2b "-"). rewrite (proj2 (beq_neq _ _) Hnew).
        destruct (HW1 new Hva) as (w' & X1 & X2 & X3).
        destruct (sh_disks K new) as [y|] eqn:E.
        * destruct ow; [exists w'; cbn [fst snd]; split; [exact X1|split; [exact X2|exact X3]]|].
          destruct (sv_disks _ _ HV1 new y E) as (c2 & d2 & Hc2 & _). cbn [run]. rewrite Hc2. cbn [run perr]. exists w1. cbn [fst snd]. split; [reflexivity|]. split; [congruence|exact HV1].
        * destruct Hva as [X|Hfree]; [contradiction (X E)|]. exists w'. cbn [fst snd]. split; [|split; [exact X2|exact X3]].
          destruct ow; [exact X1|]. cbn [run]. rewrite (sv_files _ _ HV1 new E), Hfree. exact X1.
    - cbn [deed_command do]. rewrite Hk. destruct (sv_disks _ _ HV img x Hk) as (c & d & Hc & Hd & Hh & HW). cbn [fst snd].
      unfold main_run. rewrite run_pbind. unfold FileContentsOrStdIn. change dash with (s2b "-"). rewrite (proj2 (beq_neq _ _) Himg). cbn [run]. unfold sys_read. rewrite Hc. cbn [run].
      destruct (write_shelved w K new x c d HV Hva Hd Hh HW) as (w' & E1 & E2 & E3). exists w'. cbn [run] in E1. rewrite E1. split; [reflexivity|]. split; [congruence|exact E3].
    - cbn [deed_command do]. unfold main_run. cbn [run]. unfold sys_write. rewrite (sv_files _ _ HV file Hk), (sv_room _ _ HV).
      destruct (can_write (sh_files K file)); cbn [fits fst snd]; [|exists w; split; [reflexivity|split; [exact Hw0|exact HV]]].
      eexists. split; [reflexivity|]. split; [exact Hw0|]. destruct HV as [V1 V2 V3 V4]. split; [| |exact V3|exact V4]; cbn [sh_disks sh_files set_fs w_fs].
      + intros i y X. destruct (beq i file) eqn:Ei; [apply beq_eq in Ei; subst i; congruence|]. exact (V1 _ _ X).
      + intros i X. destruct (beq i file) eqn:Ei; [reflexivity|]. exact (V2 _ X).
  Qed.
  Lemma deeds_refine h : forall w K, shelved w K -> orderly h K -> unnoticed iter fuel (map fst h) w -> (B -> spare gm h K) ->
    snd (session (map (deed_command iter fuel) (map fst h)) w) = snd (deeds h K) /\
    shelved (fst (session (map (deed_command iter fuel) (map fst h)) w)) (fst (deeds h K)).
  Proof.
    induction h as [|[x m] h IH]; intros w K HV Hm Hth Hsp; [split; [reflexivity|exact HV]|].
    cbn [orderly] in Hm. destruct Hm as [Hx Hm]. cbn [map fst session deeds]. cbn [map fst unnoticed] in Hth. destruct Hth as [Hu Hth].
    assert (Hu' : unmarked_for x (quiet w)) by (destruct x; exact Hu).
    destruct (deed_refines x m (quiet w) K (shelved_quiet _ _ HV) Hu' eq_refl Hx (fun b => proj1 (Hsp b))) as (w1 & Er & Hout & HV1). rewrite Er. rewrite Er in Hth.
    assert (B -> spare gm h (fst (do x m K))) as Hsp1 by (intros b; exact (proj2 (Hsp b))).
    destruct (do x m K) as [K1 [st out]]. cbn [fst snd] in *.
    specialize (IH w1 K1 HV1 Hm Hth Hsp1).
    destruct (session (map (deed_command iter fuel) (map fst h)) w1) as [w2 l]. destruct (deeds h K1) as [K2 l2]. cbn [fst snd] in *.
    destruct IH as [-> HV2]. split; [rewrite Hout; reflexivity|exact HV2].
  Qed.
  Lemma shelved_unmarked w K x m : B -> shelved w K -> sound K x m -> unmarked_for x w.
  Proof.
    intros b HV Hs. destruct Hs as [order img a p x Hk Himg Hio Hp Hout|order img n a s0 f p x Hk Himg Hio Ha H0 HT Hp|a b0 ow img new m x t Hk Himg Hnew Fa Fb HO Hva|img new m x Hk Himg Hva|file c m Hk]; cbn [unmarked_for]; [| |exact I|exact I|exact I];
      exact (board_unmarked img (kp_order x) B gm w _ (shelved_board _ _ _ _ HV Hk) b).
  Qed.
  Lemma deeds_unmarked h : B -> forall w K, shelved w K -> orderly h K -> spare gm h K -> unnoticed iter fuel (map fst h) w.
  Proof.
    intros b. induction h as [|[x m] h IH]; intros w K HV Hm Hsp; [exact I|].
    cbn [orderly] in Hm. destruct Hm as [Hx Hm]. cbn [spare] in Hsp. destruct Hsp as [Ht Hsp]. cbn [map fst unnoticed].
    pose proof (shelved_unmarked w K x m b HV Hx) as Hu. split; [exact Hu|].
    assert (Hu' : unmarked_for x (quiet w)) by (destruct x; exact Hu).
    destruct (deed_refines x m (quiet w) K (shelved_quiet _ _ HV) Hu' eq_refl Hx (fun _ => Ht)) as (w1 & Er & _ & HV1). rewrite Er. cbn [fst].
    exact (IH w1 _ HV1 Hm Hsp).
  Qed.
End Shelf.

(** ** The statements *)
Lemma disk_holds c o s l : disk_of c o s l -> exists d, naked_image c o d /\ NamesProofs.holds (d, stored_map d) s l.
Proof.
  intros (d & t & ch & H1 & H2 & H3 & H4 & H5 & H6 & H7 & H8 & H9). exists d. split; [exact H1|].
  pose proof (start_board False 0 [] o (World (fun _ => NFile c true true) None [] None None) c d t ch (Board (fun _ => NFile c true true) s l) eq_refl H1 eq_refl eq_refl H2 H3 H4 H5 H6 H7
    ltac:(intros; reflexivity) H8 H9 ltac:(intros [])) as [(c2 & d2 & E & G1 & G2 & _) _ _ _].
  cbn [w_fs] in E. injection E as <-. rewrite <- (reordered_fun _ _ _ _ _ (proj1 H1) (proj1 G1)) in G2. exact G2.
Qed.
Lemma holds_disk c o d s l : naked_image c o d -> NamesProofs.holds (d, stored_map d) s l -> disk_of c o s l.
Proof.
  intros G2 (t' & m' & ch' & G3 & G4 & G5 & G6 & G7). destruct G3 as [F1 F2 F3 F4 F5 F6 (F7 & F8 & F9) F10]. exists d, t', ch'.
  split; [exact G2|]. split; [split; [exact F1|split; [exact F2|split; [exact F3|exact F4]]]|].
  split; [split; [exact F5|split; [exact F6|apply (chains_links t' ch' F10)]]|]. split; [apply F7|]. split; [exact F10|]. split; [exact G6|]. split; [exact G7|]. split; [exact G5|exact G4].
Qed.
Lemma shows_shelved (B : Prop) g w K : shows w K ->
  (forall img x c d, sh_disks K img = Some x -> w_fs w img = NFile c true true -> naked_image c (kp_order x) d -> watched B g d (stored_map d)) ->
  shelved B g w K.
Proof.
  intros [S1 S2 S3 S4] HW. split; [|exact S2|exact S3|exact S4]. intros img x E. destruct (S1 img x E) as (c & Hc & Hd).
  destruct (disk_holds _ _ _ _ Hd) as (d & H1 & H2). exists c, d. split; [exact Hc|]. split; [exact H1|]. split; [exact H2|]. exact (HW img x c d E Hc H1).
Qed.
Lemma shelved_shows (B : Prop) g w K : shelved B g w K -> shows w K.
Proof.
  intros [S1 S2 S3 S4]. split; [|exact S2|exact S3|exact S4]. intros img x E. destruct (S1 img x E) as (c & d & Hc & H1 & H2 & _).
  exists c. split; [exact Hc|]. exact (holds_disk _ _ _ _ _ H1 H2).
Qed.

Lemma shelf_session : forall (iter : list (Z * Subdirectory) -> list (Z * Subdirectory)) fuel h w K,
  shows w K -> orderly h K -> unnoticed iter fuel (map fst h) w ->
  exists w' K' outcomes,
    session (map (fun xm => deed_command iter fuel (fst xm)) h) w = (w', outcomes) /\ deeds h K = (K', outcomes) /\ shows w' K'.
Proof.
  intros iter fuel h w K HS Ho Hu. assert (HV : shelved False 0 w K) by (apply shows_shelved; [exact HS|intros ? ? ? ? _ _ _ []]).
  destruct (deeds_refine iter fuel False 0 ltac:(intros []) h w K HV Ho Hu ltac:(intros [])) as [E1 E2].
  rewrite map_map in E1, E2. remember (map (fun x => deed_command iter fuel (fst x)) h) as ps eqn:Eps.
  destruct (session ps w) as [w' l] eqn:Es. destruct (deeds h K) as [K' l'] eqn:Ea. cbn [fst snd] in E1, E2. subst l'.
  exists w', K', l. split; [reflexivity|]. split; [reflexivity|]. exact (shelved_shows _ _ _ _ E2).
Qed.
Lemma shelf_spared : forall (iter : list (Z * Subdirectory) -> list (Z * Subdirectory)) fuel h w K g,
  shows w K -> orderly h K -> g <> FREE -> g <> 3 -> g <> 4 ->
  (forall img x c d, sh_disks K img = Some x -> w_fs w img = NFile c true true -> naked_image c (kp_order x) d -> release_byte c <> 3 /\ mark_owner d = g) ->
  spare g h K -> unnoticed iter fuel (map fst h) w.
Proof.
  intros iter fuel h w K g HS Ho NF N3 N4 HM Hsp.
  assert (HV : shelved True g w K).
  { apply shows_shelved; [exact HS|]. intros img x c d E Hc Hd _. destruct (HM img x c d E Hc Hd) as [H1 H2].
    split; [rewrite (release_same _ _ _ _ (proj1 Hd)); exact H1|exact H2]. }
  exact (deeds_unmarked iter fuel True g ltac:(intros _; split; [exact NF|split; [exact N3|exact N4]]) h I w K HV Ho Hsp).
Qed.
