(** ListingProofs.v -- dump | applesoft decode. *)
From Coq Require Import ZifyBool ZifyNat.
From Verif Require Import GoBase GoLemmas TypesModel DiskModel DiskSpec DiskProofs.
From Verif Require Import ProdosModel BasicModel CmdModel CmdSpec CmdProofs CmdStmtProofs MainModel DetectSpec DetectProofs PrintProofs ListProofs ListingSpec.
From Verif Require Dos3Spec Dos3Proofs BasicSpec BasicProofs BasicStmtProofs Dos3StmtProofs ProdosSpec.
Ltac Zify.zify_post_hook ::= Z.div_mod_to_equations.
Lemma sub_short {A} (l : list A) a b : 0 <= a <= zlen l -> zlen (sub l a b) <= zlen l - a.
Proof. intros H. unfold sub, zlen in *. rewrite firstn_length, skipn_length. lia. Qed.
Local Opaque zrange zeros sub.

Lemma stored_dump iter img order system c d o l n f w :
  ProdosSpec.an_order iter -> seen_as img order c (s2b "dos3") d o -> (system = s2b "auto" \/ system = s2b "dos3") ->
  bytes_ok d -> Dos3Spec.catalog d l -> input w img c -> w_outroom w = None -> stored d l n f ->
  eventually (fun fuel => prints (DumpCmd_Run iter fuel order system img n) w f).
Proof.
  intros Hi Hs Hsys B HC Hin Ho (e & ls & data & HL & HT & HB & HW & HF).
  apply (dump_dos iter img order system c d o l n e ls data 0x801 f w Hi Hs Hsys B HC Hin Ho HL HB).
  assert (zlen f = zlen (sub data 2 (2 + zlen f))) as HZ by (rewrite HF; reflexivity).
  assert (0 <= zlen f) as H0 by apply zlen_nonneg.
  assert (256 <= zlen data <= 31232 * zlen ls) as HD.
  { apply (Dos3Proofs.body_len d (znth 0 e 0, znth 0 e 1) ls data B); [|exact HB]. destruct HL as (a & b & _ & Hl & _).
    intros E. injection E as E1 _. unfold Dos3Spec.is_live in Hl. rewrite E1 in Hl. discriminate Hl. }
  assert (2 + zlen f <= zlen data) as HX.
  { destruct (Z_le_dec (2 + zlen f) (zlen data)) as [H|H]; [exact H|]. exfalso.
    pose proof (sub_short data 2 (2 + zlen f) ltac:(lia)). lia. }
  rewrite <- HF at 1. replace (sub data 2 (2 + zlen f)) with (sub (Dos3Spec.pad data (31232 * zlen ls)) 2 (2 + zlen f)).
  - apply Dos3Spec.dec_applesoft; [exact HT|symmetry; exact HW|lia].
  - unfold Dos3Spec.pad. rewrite sub_app_l by lia. reflexivity.
Qed.

Definition handed (w w1 : world) (f : bytes) : world := World (w_fs w1) (Some f) (w_stdout w) (w_room w1) (w_outroom w).
Lemma printed_run p w w1 f : run p w = (w1, Ok tt) -> w_stdout w1 = w_stdout w ++ f -> forall q,
  piped p q w = (let '(w2, s2) := main_run q (handed w w1 f) in (w2, 0, s2)).
Proof.
  intros R E q. unfold piped. assert (main_run p w = (w1, 0)) as -> by (unfold main_run; rewrite R; reflexivity).
  rewrite E, skipn_app, skipn_all, Nat.sub_diag. reflexivity.
Qed.
Definition text_of_lines (ls : list Line) (raw : bool) : bytes := if raw then applesoft_String ls else ChevronControlCodes (applesoft_String ls).
Lemma listing_of ls raw : Forall BasicSpec.line_ok ls -> listing ls raw (text_of_lines ls raw).
Proof.
  intros H3. destruct (BasicProofs.C59_text ls) as (ts & HF & ES).
  { eapply Forall_impl; [|exact H3]. intros l [Hn _]. unfold is_u16 in Hn. lia. }
  exists ts. split; [exact HF|]. unfold text_of_lines. rewrite ES. destruct raw; [reflexivity|]. apply BasicStmtProofs.C60_lemma.
  apply concat_bytes. clear - HF H3. induction HF as [|l t ls ts (s & D & ->) _ IH]; [constructor|]. inversion H3 as [|? ? [Hn Hb] H3']; subst. constructor; [|apply IH; exact H3'].
  destruct D as (_ & Ds & _). apply Forall_app. split; [eapply Forall_impl; [|exact Ds]; intros x Hx; cbv beta in Hx; unfold is_byte; lia|].
  apply Forall_app. split; [constructor; [unfold is_byte; lia|constructor]|]. apply Forall_app. split; [|constructor; [unfold is_byte; lia|constructor]].
  apply concat_bytes. apply Forall_map. eapply Forall_impl; [|exact Hb]. exact text_ok.
Qed.
Lemma decode_stdin k f loc raw w r : w_stdin w = Some f -> w_outroom w = None -> applesoft_Decode k f loc = Some r ->
  exists w2, main_run (DecodeCmd_Run k (s2b "-") loc raw) w = (w2, match r with Ok _ => 0 | Err _ => 1 | Panic => 2 end) /\ same_files w w2 /\
    w_stdout w2 = w_stdout w ++ match r with Ok ls => text_of_lines ls raw | _ => [] end.
Proof.
  intros Hi Ho E. assert (input w (s2b "-") f) as Hin by (left; split; [reflexivity|exact Hi]).
  destruct (run_contents_ok w (s2b "-") f Hin) as (w1 & Er & Hsf & Hso & _ & Hor).
  unfold main_run, DecodeCmd_Run. rewrite run_pbind, Er, run_pbind. unfold plift. cbn [run]. rewrite E. cbn [returned run].
  destruct r as [ls|e|]; [|exists w1; split; [reflexivity|split; [exact Hsf|rewrite app_nil_r; exact Hso]]..].
  cbn [run]. unfold sys_stdout. rewrite Hor, Ho. cbn [fits]. eexists. split; [reflexivity|]. split; [intros m; exact (Hsf m)|].
  cbn [add_out w_stdout]. rewrite Hso. reflexivity.
Qed.
Lemma piped_decode iter img order system c d o l n f raw w r :
  ProdosSpec.an_order iter -> seen_as img order c (s2b "dos3") d o -> (system = s2b "auto" \/ system = s2b "dos3") ->
  bytes_ok d -> Dos3Spec.catalog d l -> input w img c -> w_outroom w = None -> stored d l n f ->
  Dos3Spec.returns (fun k => applesoft_Decode k f 0x801) (eq r) ->
  eventually (fun k => exists w2, piped (DumpCmd_Run iter k order system img n) (DecodeCmd_Run k (s2b "-") 0x801 raw) w =
      (w2, 0, match r with Ok _ => 0 | Err _ => 1 | Panic => 2 end) /\ same_files w w2 /\
    w_stdout w2 = w_stdout w ++ match r with Ok ls => text_of_lines ls raw | _ => [] end).
Proof.
  intros Hi Hs Hsys B HC Hin Ho HS HR. eapply eventually_impl; [|exact (eventually_and _ _ (stored_dump iter img order system c d o l n f w Hi Hs Hsys B HC Hin Ho HS) (eventually_returns _ _ HR))].
  intros k [(w1 & R & Sf & So) (r' & Er & E)]. cbv beta in *. subst r'. rewrite (printed_run _ _ _ _ R So).
  destruct (decode_stdin k f 0x801 raw (handed w w1 f) r eq_refl Ho E) as (w2 & Em & Sf2 & So2). rewrite Em. exists w2. split; [reflexivity|]. split; [|exact So2].
  intros m. rewrite (Sf2 m). exact (Sf m).
Qed.
Lemma no_header l ls t : 0x801 + zlen (BasicSpec.program 0x801 (l :: ls)) <= 65536 ->
  zlen (BasicSpec.program 0x801 (l :: ls) ++ t) < 2056 -> ~ BasicSpec.has_header (BasicSpec.program 0x801 (l :: ls) ++ t).
Proof.
  intros H L [_ H']. assert (zlen (BasicSpec.program 0x801 (l :: ls)) = BasicSpec.line_size l + zlen (BasicSpec.program (0x801 + BasicSpec.line_size l) ls)) as EZ.
  { cbn [BasicSpec.program]. rewrite !zlen_app, !BasicProofs.zlen_put16. unfold BasicSpec.line_size. change (zlen [0]) with 1. lia. }
  assert (2 <= zlen (BasicSpec.program (0x801 + BasicSpec.line_size l) ls)) as H0.
  { destruct ls as [|l' ls']; [discriminate|]. cbn [BasicSpec.program]. rewrite zlen_app, BasicProofs.zlen_put16.
    pose proof (zlen_nonneg (put16 (l_Num l') ++ l_Bytes l' ++ [0] ++ BasicSpec.program (0x801 + BasicSpec.line_size l + BasicSpec.line_size l') ls')). lia. }
  assert (5 <= BasicSpec.line_size l) as H5 by (unfold BasicSpec.line_size; pose proof (zlen_nonneg (l_Bytes l)); lia).
  assert (Dos3Spec.word (BasicSpec.program 0x801 (l :: ls) ++ t) 0 = 0x801 + BasicSpec.line_size l) as EW.
  { cbn [BasicSpec.program]. rewrite <- app_assoc. apply (BasicProofs.word_put16 []). unfold is_u16. lia. }
  change (BasicSpec.word (BasicSpec.program 0x801 (l :: ls) ++ t) 0) with (Dos3Spec.word (BasicSpec.program 0x801 (l :: ls) ++ t) 0) in H'. rewrite EW in H'. lia.
Qed.
Lemma stored_tail d l n a t : bytes_ok d -> stored d l n (a ++ t) -> bytes_ok t.
Proof.
  intros B (e & ls & data & _ & _ & HB & _ & HF). pose proof (Dos3Proofs.body_bytes d _ ls data B HB) as Bd.
  assert (bytes_ok (a ++ t)) as H by (rewrite <- HF; apply bytes_ok_sub; exact Bd). apply Forall_app in H. apply H.
Qed.
Lemma C107_lemma iter img order system c d o l n ls t raw w :
  ProdosSpec.an_order iter -> seen_as img order c (s2b "dos3") d o -> (system = s2b "auto" \/ system = s2b "dos3") ->
  bytes_ok d -> Dos3Spec.catalog d l -> input w img c -> w_outroom w = None ->
  stored d l n (BasicSpec.program 0x801 ls ++ t) -> Forall BasicSpec.line_ok ls -> 0x801 + zlen (BasicSpec.program 0x801 ls) <= 65536 ->
  ~ BasicSpec.has_header (BasicSpec.program 0x801 ls ++ t) ->
  exists out, listing ls raw out /\
    eventually (fun k => exists w2, piped (DumpCmd_Run iter k order system img n) (DecodeCmd_Run k (s2b "-") 0x801 raw) w = (w2, 0, 0) /\
      same_files w w2 /\ w_stdout w2 = w_stdout w ++ out).
Proof.
  intros Hi Hs Hsys B HC Hin Ho HS HL HZ HN. exists (text_of_lines ls raw). split; [apply listing_of; exact HL|].
  apply (piped_decode iter img order system c d o l n (BasicSpec.program 0x801 ls ++ t) raw w (Ok ls) Hi Hs Hsys B HC Hin Ho HS).
  pose proof (BasicProofs.C55_decodes_stored_programs ls 0x801 t _ ltac:(lia) HZ HL (stored_tail _ _ _ _ _ B HS) (or_introl (conj eq_refl HN))) as (m & r & E & H).
  exists m, r. split; [|exact H]. symmetry. exact E.
Qed.
(** ** Disks *)
(** A disk with the Applesoft program HELLO, which is followed by no more than 14 other sectors. *)
Definition ex_prog_disk (f : bytes) (n : nat) : bytes :=
  let d := zeros 143360 in
  let d := Dos3StmtProofs.put d 17 0 (Dos3StmtProofs.ex_vtoc_bytes 17 15) in
  let d := Dos3StmtProofs.put d 17 15 ([0; 0; 0] ++ repeat 0 8 ++ Dos3StmtProofs.ex_entry 18 15 0x02 (s2b "HELLO") (Z.of_nat n + 1)) in
  let d := Dos3StmtProofs.put d 18 15 (repeat 0 12 ++ flat_map (fun i => [19; Z.of_nat i]) (seq 0 n)) in
  Dos3StmtProofs.put d 19 0 (put16 (zlen f) ++ f).

Lemma prog_seen d : zlen d = 143360 -> bytes_ok d -> Dos3Spec.catalog d [(17, 15)] -> seen_as (s2b "x.dsk") (s2b "auto") d (s2b "dos3") d (s2b "do").
Proof.
  intros L B HC. apply (sa_floppy _ _ _ [] _ [s2b "po"]); [exact L|exact B|exact auto_dsk|constructor|].
  apply ra_dos; [apply (reordered_self _ _ _ L il_do)|eexists; exact HC].
Qed.
Lemma prog_catalog d : zlen d = 143360 -> bytes_ok d -> Dos3Model.Validate (Dos3Proofs.vtoc_of d) = Ok tt -> znth 0 (Dos3Spec.vtoc d) 0x35 = 16 ->
  Dos3Spec.catalog_start d = (17, 15) -> Dos3Spec.link d 17 15 = (0, 0) -> Dos3Spec.catalog d [(17, 15)].
Proof.
  intros L B V S Es El. assert (Dos3Spec.in_image d 17 0) as Hi by (unfold Dos3Spec.in_image; rewrite L; unfold offset; lia).
  split; [exact Hi|]. split; [apply Dos3StmtProofs.good_vtoc_check; assumption|]. rewrite Es.
  constructor; [discriminate | unfold Dos3Spec.catalog_place; rewrite S, L; unfold offset; lia|]. rewrite El. constructor.
Qed.
(** The sectors of the file. *)
Definition ex_sectors (n : nat) : list (Z * Z) := map (fun i => (19, Z.of_nat i)) (seq 0 n).
Definition ex_file_entry (n : nat) : bytes := Dos3StmtProofs.ex_entry 18 15 0x02 (s2b "HELLO") (Z.of_nat n + 1).
Lemma prog_stored d f n z : zlen d = 143360 -> Dos3Spec.entries d [(17, 15)] = ex_file_entry (S n) :: tl (Dos3Spec.entries d [(17, 15)]) ->
  Dos3Spec.link d 18 15 = (0, 0) -> Dos3Spec.pairs (sector d 18 15) = ex_sectors (S n) ++ repeat (0, 0) z -> (n < 16)%nat ->
  Dos3Spec.word (concat (map (Dos3Spec.pair_bytes d) (ex_sectors (S n)))) 0 = zlen f ->
  sub (concat (map (Dos3Spec.pair_bytes d) (ex_sectors (S n)))) 2 (2 + zlen f) = f ->
  stored d [(17, 15)] (s2b "HELLO") f.
Proof.
  intros L EE EL EP Hn EW EF. exists (ex_file_entry (S n)), [(18, 15)], (concat (map (Dos3Spec.pair_bytes d) (ex_sectors (S n)))).
  split; [|split; [reflexivity|split; [|split; [exact EW|exact EF]]]].
  - apply (lookup_check _ [] (ex_file_entry (S n)) (tl (Dos3Spec.entries d [(17, 15)]))); [exact EE|reflexivity|reflexivity|reflexivity].
  - split.
    + change (znth 0 (ex_file_entry (S n)) 0, znth 0 (ex_file_entry (S n)) 1) with (18, 15). constructor; [discriminate|unfold Dos3Spec.in_image; rewrite L; unfold offset; lia|]. rewrite EL. constructor.
    + exists (ex_sectors (S n)). split; [|split; [|reflexivity]].
      * constructor. right. exists (19, Z.of_nat n), (repeat (0, 0) z). split; [discriminate|]. split; [apply Forall_forall; intros x Hx; apply repeat_spec in Hx; exact Hx|].
        split; [|exact EP]. exists (ex_sectors n). unfold ex_sectors. rewrite seq_S, map_app. reflexivity.
      * apply Forall_forall. intros x Hx. apply in_map_iff in Hx. destruct Hx as (i & <- & Hx). apply in_seq in Hx. right. unfold Dos3Spec.in_image. cbn [fst snd]. rewrite L. unfold offset. lia.
Qed.
Definition ex_listed : bytes := ex_prog_disk (BasicSpec.program 0x801 BasicStmtProofs.ex_small) 1.
Definition ex_unlisted : bytes := ex_prog_disk (BasicSpec.program 0x801 BasicStmtProofs.ex_big) 9.
Definition ex_new : bytes := ex_prog_disk (BasicSpec.program 0x801 []) 1.
Lemma listed_ok : holds_program ex_listed BasicStmtProofs.ex_small.
Proof. unfold holds_program. assert (zlen ex_listed = 143360) as L by (vm_compute; reflexivity). assert (bytes_ok ex_listed) as B by (apply Dos3StmtProofs.bytes_ok_forallb; vm_compute; reflexivity).
  split; [exact L|]. split; [exact B|]. split; [apply prog_catalog; [exact L|exact B|vm_compute; reflexivity..]|].
  apply (prog_stored ex_listed _ 0 121); [exact L|vm_compute; reflexivity|vm_compute; reflexivity|vm_compute; reflexivity|lia|vm_compute; reflexivity|vm_compute; reflexivity]. Qed.
Lemma unlisted_ok : holds_program ex_unlisted BasicStmtProofs.ex_big.
Proof. unfold holds_program. assert (zlen ex_unlisted = 143360) as L by (vm_compute; reflexivity). assert (bytes_ok ex_unlisted) as B by (apply Dos3StmtProofs.bytes_ok_forallb; vm_compute; reflexivity).
  split; [exact L|]. split; [exact B|]. split; [apply prog_catalog; [exact L|exact B|vm_compute; reflexivity..]|].
  apply (prog_stored ex_unlisted _ 8 113); [exact L|vm_compute; reflexivity|vm_compute; reflexivity|vm_compute; reflexivity|lia|vm_compute; reflexivity|vm_compute; reflexivity]. Qed.
Lemma new_ok : holds_program ex_new [].
Proof. unfold holds_program. assert (zlen ex_new = 143360) as L by (vm_compute; reflexivity). assert (bytes_ok ex_new) as B by (apply Dos3StmtProofs.bytes_ok_forallb; vm_compute; reflexivity).
  split; [exact L|]. split; [exact B|]. split; [apply prog_catalog; [exact L|exact B|vm_compute; reflexivity..]|].
  apply (prog_stored ex_new _ 0 121); [exact L|vm_compute; reflexivity|vm_compute; reflexivity|vm_compute; reflexivity|lia|vm_compute; reflexivity|vm_compute; reflexivity]. Qed.
Lemma C107_short_lemma iter img order system c d o l n x ls t raw w :
  ProdosSpec.an_order iter -> seen_as img order c (s2b "dos3") d o -> (system = s2b "auto" \/ system = s2b "dos3") ->
  bytes_ok d -> Dos3Spec.catalog d l -> input w img c -> w_outroom w = None ->
  stored d l n (BasicSpec.program 0x801 (x :: ls) ++ t) -> Forall BasicSpec.line_ok (x :: ls) -> zlen (BasicSpec.program 0x801 (x :: ls) ++ t) < 2056 ->
  exists out, listing (x :: ls) raw out /\
    eventually (fun k => exists w2, piped (DumpCmd_Run iter k order system img n) (DecodeCmd_Run k (s2b "-") 0x801 raw) w = (w2, 0, 0) /\
      same_files w w2 /\ w_stdout w2 = w_stdout w ++ out).
Proof.
  intros Hi Hs Hsys B HC Hin Ho HS HL HZ. assert (0x801 + zlen (BasicSpec.program 0x801 (x :: ls)) <= 65536) as H1.
  { rewrite zlen_app in HZ. pose proof (zlen_nonneg t). lia. }
  apply (C107_lemma iter img order system c d o l n (x :: ls) t raw w Hi Hs Hsys B HC Hin Ho HS HL H1). apply no_header; [exact H1|exact HZ].
Qed.
Lemma unlisted d ls e : holds_program d ls -> Dos3Spec.returns (fun k => applesoft_Decode k (BasicSpec.program 0x801 ls) 0x801) (fun r => r = Err e) ->
  forall iter raw w, ProdosSpec.an_order iter -> input w (s2b "x.dsk") d -> w_outroom w = None ->
    eventually (fun k => exists w2, piped (DumpCmd_Run iter k (s2b "auto") (s2b "auto") (s2b "x.dsk") (s2b "HELLO")) (DecodeCmd_Run k (s2b "-") 0x801 raw) w = (w2, 0, 1) /\
      same_files w w2 /\ w_stdout w2 = w_stdout w).
Proof.
  intros (L & B & HC & HS) HR iter raw w Hi Hin Ho.
  assert (Dos3Spec.returns (fun k => applesoft_Decode k (BasicSpec.program 0x801 ls) 0x801) (eq (Err e))) as HR'.
  { destruct HR as (m & r & E & H). exists m, r. split; [symmetry; exact E|exact H]. }
  eapply eventually_impl; [|exact (piped_decode iter (s2b "x.dsk") (s2b "auto") (s2b "auto") d d (s2b "do") [(17, 15)] (s2b "HELLO") _ raw w _ Hi (prog_seen d L B HC) (or_introl eq_refl) B HC Hin Ho HS HR')].
  intros k (w2 & E & Sf & So). exists w2. split; [exact E|]. split; [exact Sf|]. rewrite So. apply app_nil_r.
Qed.
Lemma C107_refuted_lemma : exists d ls, holds_program d ls /\ ls <> [] /\ Forall BasicSpec.line_ok ls /\ 0x801 + zlen (BasicSpec.program 0x801 ls) <= 65536 /\
  forall iter raw w, ProdosSpec.an_order iter -> input w (s2b "x.dsk") d -> w_outroom w = None ->
    eventually (fun k => exists w2, piped (DumpCmd_Run iter k (s2b "auto") (s2b "auto") (s2b "x.dsk") (s2b "HELLO")) (DecodeCmd_Run k (s2b "-") 0x801 raw) w = (w2, 0, 1) /\
      same_files w w2 /\ w_stdout w2 = w_stdout w).
Proof.
  exists ex_unlisted, BasicStmtProofs.ex_big. split; [exact unlisted_ok|]. split; [discriminate|]. split; [apply BasicStmtProofs.line_okb_ok; vm_compute; reflexivity|].
  split; [apply Z.leb_le; vm_compute; reflexivity|].
  assert (exists e, applesoft_Decode 2 (BasicSpec.program 0x801 BasicStmtProofs.ex_big) 0x801 = Some (Err e)) as [e E] by (eexists; vm_compute; reflexivity).
  apply (unlisted ex_unlisted BasicStmtProofs.ex_big e unlisted_ok). exists 2%nat, (Err e). split; [reflexivity|]. intros k Hk. exact (BasicProofs.Decode_mono _ _ 2 _ E k Hk).
Qed.
Lemma C107_new_lemma : exists d, holds_program d [] /\
  forall iter raw w, ProdosSpec.an_order iter -> input w (s2b "x.dsk") d -> w_outroom w = None ->
    eventually (fun k => exists w2, piped (DumpCmd_Run iter k (s2b "auto") (s2b "auto") (s2b "x.dsk") (s2b "HELLO")) (DecodeCmd_Run k (s2b "-") 0x801 raw) w = (w2, 0, 1) /\
      same_files w w2 /\ w_stdout w2 = w_stdout w).
Proof.
  exists ex_new. split; [exact new_ok|].
  assert (exists e, applesoft_Decode 2 (BasicSpec.program 0x801 []) 0x801 = Some (Err e)) as [e E] by (eexists; vm_compute; reflexivity).
  apply (unlisted ex_new [] e new_ok). exists 2%nat, (Err e). split; [reflexivity|]. intros k Hk. exact (BasicProofs.Decode_mono _ _ 2 _ E k Hk).
Qed.
Lemma C107_example_lemma : exists d ls, holds_program d ls /\ seen_as (s2b "x.dsk") (s2b "auto") d (s2b "dos3") d (s2b "do") /\ Forall BasicSpec.line_ok ls /\ ls <> [] /\
  zlen (BasicSpec.program 0x801 ls) < 2056 /\ ~ BasicSpec.has_header (BasicSpec.program 0x801 ls) /\
  listing ls false (s2b "10  PRINT ""HI""" ++ [10] ++ s2b "20  GOTO 10" ++ [10]).
Proof.
  exists ex_listed, BasicStmtProofs.ex_small. split; [exact listed_ok|]. destruct listed_ok as (L & B & HC & _). split; [exact (prog_seen _ L B HC)|].
  split; [apply BasicStmtProofs.ex_small_ok|]. split; [discriminate|]. split; [vm_compute; reflexivity|]. split; [apply BasicStmtProofs.ex_small_ok|].
  pose proof (listing_of BasicStmtProofs.ex_small false (proj1 BasicStmtProofs.ex_small_ok)) as H.
  assert (text_of_lines BasicStmtProofs.ex_small false = s2b "10  PRINT ""HI""" ++ [10] ++ s2b "20  GOTO 10" ++ [10]) as E by (vm_compute; reflexivity).
  rewrite E in H. exact H.
Qed.
