(** ChangesProofs.v -- proofs for property C113. *)
From Coq Require Import ZifyBool ZifyNat.
From Verif Require CmdStmtProofs.
From Verif Require Import GoBase GoLemmas DiskModel TypesModel DiskSpec SupermonModel SupermonSpec SupermonTableSpec SupermonStoreSpec SupermonProofs SupermonSymProofs
  SupermonTabProofs SupermonLinkProofs SupermonNameProofs SupermonOpProofs SupermonFinalProofs SupermonNamedProofs.
From Verif Require ProdosSpec.
From Verif Require Import ProdosModel CmdModel CmdSpec CmdProofs NakedCmdSpec NakedCmdProofs NakedSeenProofs DetectSpec DetectProofs ListSpec OpenFuelProofs StatusSpec StatusProofs ChangesSpec ChangesTabProofs.
Ltac Zify.zify_post_hook ::= Z.div_mod_to_equations.
Local Opaque zrange zeros sub.

(** ** Disks are determined by what [placed] says *)
Lemma znth_sec (d : bytes) p : 0 <= p < 143360 -> zlen d = 143360 -> znth 0 d p = znth 0 (sec d (p / 256)) (p mod 256).
Proof. intros Hp Hd. unfold sec. rewrite znth_sub by lia. f_equal. lia. Qed.
Lemma znth_map (d : bytes) p : 2512 <= p < 3072 -> zlen d = 143360 -> znth 0 d p = znth 0 (stored_map d) (p - 2512).
Proof. intros Hp Hd. unfold stored_map. rewrite znth_sub by lia. f_equal. lia. Qed.
Lemma In_room d f k : In k (room d f) <-> 0 <= k < 560 /\ (znth 0 (stored_map d) k = FREE \/ znth 0 (stored_map d) k = f).
Proof. unfold room. rewrite filter_In, In_zrange. split; intros [H1 H2]; (split; [exact H1|]); lia. Qed.
Lemma In_taken d f c k : In k (taken d f c) -> In k (room d f).
Proof. apply In_firstn. Qed.
Lemma zlen_taken d f c : nsec c <= zlen (room d f) -> zlen (taken d f c) = nsec c.
Proof. intros H. unfold taken. apply zlen_firstn. unfold nsec in *. pose proof (zlen_nonneg c). lia. Qed.

Lemma placed_map d f c d1 d2 : placed d f c d1 -> placed d f c d2 -> forall k, 0 <= k < 560 -> znth 0 (stored_map d1) k = znth 0 (stored_map d2) k.
Proof.
  intros P1 P2 k Hk. destruct (in_dec Z.eq_dec k (taken d f c)) as [Hi|Hi].
  - rewrite (pl_taken _ _ _ _ P1 k Hi), (pl_taken _ _ _ _ P2 k Hi). reflexivity.
  - destruct (Z.eq_dec (znth 0 (stored_map d) k) f) as [E|E].
    + rewrite (pl_freed _ _ _ _ P1 k Hk Hi E), (pl_freed _ _ _ _ P2 k Hk Hi E). reflexivity.
    + rewrite (pl_others _ _ _ _ P1 k Hk Hi E), (pl_others _ _ _ _ P2 k Hk Hi E). reflexivity.
Qed.
Lemma placed_one d f c d1 d2 : placed d f c d1 -> placed d f c d2 -> d1 = d2.
Proof.
  intros P1 P2. pose proof (pl_size _ _ _ _ P1) as L1. pose proof (pl_size _ _ _ _ P2) as L2.
  apply (znth_ext 0); [lia|]. intros p Hp.
  destruct (in_dec Z.eq_dec (p / 256) (taken d f c)) as [Hi|Hi].
  - rewrite (znth_sec d1), (znth_sec d2) by lia. f_equal. apply (In_znth 0) in Hi as (i & Hi & <-).
    rewrite (zlen_taken _ _ _ (pl_fits _ _ _ _ P1)) in Hi. rewrite (pl_data _ _ _ _ P1 i Hi), (pl_data _ _ _ _ P2 i Hi). reflexivity.
  - assert (2512 <= p < 3072 \/ ~ (2512 <= p < 3072)) as [Hm|Hm] by lia.
    + rewrite (znth_map d1), (znth_map d2) by lia. apply (placed_map d f c); [exact P1|exact P2|lia].
    + rewrite (pl_rest _ _ _ _ P1), (pl_rest _ _ _ _ P2) by (assumption || lia). reflexivity.
Qed.

(** ** WriteFile *)
Lemma flat_map_piece (d : bytes) l : (forall k, In k l -> zlen (sec d k) = 256) -> forall i, 0 <= i < zlen l ->
  sub (flat_map (sec d) l) (256 * i) (256 * i + 256) = sec d (znth 0 l i).
Proof.
  intros H. induction l as [|k l IH]; intros i Hi; [rewrite (@zlen_nil Z) in Hi; lia|].
  rewrite zlen_cons in Hi. cbn [flat_map]. pose proof (H k (or_introl eq_refl)) as Hk.
  destruct (Z.eq_dec i 0) as [->|Hi0].
  - rewrite sub_app_l by lia. rewrite znth_cons_0. replace (256 * 0 + 256) with (zlen (sec d k)) by lia. apply sub_full.
  - rewrite sub_app_r by lia. rewrite znth_cons_S by lia. rewrite Hk.
    rewrite <- (IH (fun k' Hk' => H k' (or_intror Hk')) (i - 1)) by lia. f_equal; lia.
Qed.
Lemma WriteFile_placed f c ow (d sm d' sm' : bytes) ex : floppy d sm -> legal f -> c <> [] ->
  WriteFile f c ow (d, sm) = ((d', sm'), Ok ex) -> placed d f c d' /\ floppy d' sm'.
Proof.
  intros Hfl Hf Hc E. pose proof (fl_len _ _ Hfl) as Hd. pose proof (fl_ver _ _ Hfl) as Hv. pose proof (v_len _ Hv) as Hl.
  assert (HF : floppy d' sm').
  { destruct (WriteFile_cases f c ow d sm Hfl Hf Hc) as [(_ & X)|[(_ & _ & _ & X)|(_ & _ & d2 & sm2 & X & Fl & _)]]; rewrite X in E; [discriminate E|discriminate E|].
    injection E as <- <- _. exact Fl. }
  split; [|exact HF]. pose proof (fl_map _ _ Hfl) as Hm. pose proof (fl_map _ _ HF) as Hm'. pose proof (fl_len _ _ HF) as Ld'.
  unfold WriteFile in E. rewrite FreeSectors_owned in E by exact Hl.
  rewrite SectorsForFile_owned, zlen_map in E. rewrite padded_cts in E.
  change ((zlen c + 255) / 256) with (nsec c) in E. unfold legal in Hf.
  destruct (Z.ltb_spec (zlen (owned sm FREE) + zlen (owned sm f)) (nsec c)) as [|Hsp]; [discriminate E|].
  destruct ((0 <? zlen (owned sm f)) && negb ow); [discriminate E|].
  remember (if 0 <? zlen (owned sm f) then SMDelete sm f else sm) as sm1 eqn:Esm1.
  assert (zlen sm1 = 560) as Hl1 by (rewrite Esm1; destruct (0 <? _); rewrite ?zlen_SMDelete; exact Hl).
  assert (Hk1 : forall k, 0 <= k < 560 -> znth 0 sm1 k = if znth 0 sm k =? f then FREE else znth 0 sm k).
  { intros k Hk. rewrite Esm1. destruct (Z.ltb_spec 0 (zlen (owned sm f))) as [H0|H0].
    - rewrite znth_SMDelete by lia. reflexivity.
    - destruct (Z.eqb_spec (znth 0 sm k) f) as [Ek|]; [|reflexivity]. exfalso.
      assert (In k (owned sm f)) as Hin by (apply In_owned; lia).
      rewrite (zlen_zero_nil (owned sm f)) in Hin; [destruct Hin|]. pose proof (zlen_nonneg (owned sm f)). lia. }
  assert (Hfree : zlen (owned sm1 FREE) = zlen (owned sm FREE) + zlen (owned sm f)).
  { rewrite Esm1. destruct (Z.ltb_spec 0 (zlen (owned sm f))) as [H0|H0].
    - apply owned_SMDelete_free; [exact Hl|unfold FREE; lia].
    - pose proof (zlen_nonneg (owned sm f)). lia. }
  clear Esm1.
  assert (Hroom : owned sm1 FREE = room d f).
  { unfold owned, room. rewrite Hm. apply filter_ext_in. intros k Hk. apply In_zrange in Hk. rewrite Hk1 by lia. unfold FREE.
    destruct (znth 0 sm k =? f) eqn:E1; lia. }
  assert (0 < nsec c) as Hn.
  { unfold nsec. destruct c as [|x c']; [congruence|]. rewrite zlen_cons. pose proof (zlen_nonneg c'). lia. }
  destruct (WriteFile_loop_spec f (nsec c) (padded c) Hf (zlen_padded c) (zrange 560) 0 d sm1)
    as (d2 & sm2 & Er & Ld2 & Lsm2 & Hsm2 & Hflat & Hother & _).
  { apply NoDup_zrange. } { intros k Hk. apply In_zrange in Hk. exact Hk. }
  { exact Hd. } { exact Hl1. } { lia. } { fold (owned sm1 FREE). lia. }
  rewrite all_ts_eq, Er in E. rewrite Persist_ok in E by lia. injection E as Ed' Esm' _.
  fold (owned sm1 FREE) in Hsm2, Hflat, Hother. rewrite Hroom in Hsm2, Hflat, Hother, Hfree.
  rewrite Z.sub_0_r in Hsm2, Hflat, Hother. fold (taken d f c) in Hsm2, Hflat, Hother.
  assert (Lt : zlen (taken d f c) = nsec c) by (apply zlen_taken; lia).
  assert (Ht : forall k, In k (taken d f c) -> 12 <= k < 560).
  { intros k Hk. apply In_taken, In_room in Hk as [Hk1' Hk2]. rewrite Hm in Hk2.
    assert (12 <= k \/ 0 <= k < 12) as [|H12] by lia; [lia|]. rewrite (v_res _ Hv k H12) in Hk2. unfold RESERVED, FREE in Hk2. lia. }
  rewrite Esm' in Hsm2. assert (Lsm' : zlen sm' = 560) by (rewrite <- Esm'; exact Lsm2).
  constructor.
  - lia.
  - exact Ld'.
  - intros k Hk. rewrite Hm', Hsm2 by (apply Ht in Hk; lia). apply memb_In in Hk. rewrite Hk. reflexivity.
  - intros k Hk Hni Ef. rewrite Hm', Hsm2 by lia. destruct (memb k _) eqn:Em; [apply memb_In in Em; contradiction|].
    rewrite Hk1 by lia. rewrite Hm in Ef. rewrite Ef, Z.eqb_refl. reflexivity.
  - intros k Hk Hni Ef. rewrite Hm', Hsm2 by lia. destruct (memb k _) eqn:Em; [apply memb_In in Em; contradiction|].
    rewrite Hk1 by lia. rewrite Hm in *. destruct (Z.eqb_spec (znth 0 sm k) f); [contradiction|reflexivity].
  - intros i Hi. rewrite <- Lt in Hi. assert (Hin : In (znth 0 (taken d f c) i) (taken d f c)) by (apply znth_In; lia).
    pose proof (Ht _ Hin) as H12. rewrite <- Ed', Esm'. unfold sec at 1. rewrite sub_upd_after by lia.
    change (sub d2 (256 * znth 0 (taken d f c) i) (256 * znth 0 (taken d f c) i + 256)) with (sec d2 (znth 0 (taken d f c) i)).
    rewrite <- flat_map_piece.
    + rewrite Hflat, Z.mul_0_l, Z.mul_comm, <- (zlen_padded c), sub_full. reflexivity.
    + intros k Hk. apply Ht in Hk. apply zlen_sec; lia.
    + exact Hi.
  - intros p Hp Hnm Hni. rewrite <- Ed', Esm'. rewrite znth_upd by lia. replace ((2512 <=? p) && _) with false by lia.
    rewrite (znth_sec d2), (znth_sec d) by lia. f_equal. apply Hother; [lia|exact Hni].
Qed.
(** ** Deleting *)
Lemma Delete_placed (d sm : bytes) f : floppy d sm -> legal f -> placed d f [] (upd d 2512 (SMDelete sm f)).
Proof.
  intros Hfl Hf. pose proof (fl_len _ _ Hfl) as Hd. pose proof (v_len _ (fl_ver _ _ Hfl)) as Hl. pose proof (fl_map _ _ Hfl) as Hm.
  destruct (Delete_disk d sm f Hfl Hf) as (_ & Fl & _). pose proof (fl_map _ _ Fl) as Hm'.
  change (taken d f []) with (@nil Z). constructor; change (taken d f []) with (@nil Z).
  - change (nsec []) with 0. apply zlen_nonneg.
  - apply (fl_len _ _ Fl).
  - intros k [].
  - intros k Hk _ Ef. rewrite Hm', znth_SMDelete by lia. rewrite Hm in Ef. rewrite Ef, Z.eqb_refl. reflexivity.
  - intros k Hk _ Ef. rewrite Hm', znth_SMDelete by lia. rewrite Hm in *. destruct (Z.eqb_spec (znth 0 sm k) f); [contradiction|reflexivity].
  - intros i Hi. change (nsec []) with 0 in Hi. lia.
  - intros p Hp Hnm _. assert (zlen (SMDelete sm f) = 560) as Ls by (rewrite zlen_SMDelete; exact Hl).
    rewrite znth_upd by lia. replace ((2512 <=? p) && _) with false by lia. reflexivity.
Qed.

(** ** Tables *)
Lemma code_upcase n : enc_val (upcase n) = name_code (upcase n).
Proof.
  induction n as [|c n IH]; [reflexivity|]. cbn [upcase map]. fold (upcase n). cbn [enc_val name_code]. rewrite IH.
  remember (if (97 <=? c) && (c <=? 122) then c - 32 else c) as u eqn:Eu.
  assert (Hu : ~ (97 <= u <= 122)) by (destruct ((97 <=? c) && (c <=? 122)) eqn:E; lia). clear Eu.
  unfold enc_w, enc_c, is_alnum, char_code, char_bits. replace ((97 <=? u) && (u <=? 122)) with false by lia.
  destruct ((65 <=? u) && (u <=? 90)) eqn:E1.
  { replace ((48 <=? u) && (u <=? 57)) with false by lia. cbn [orb]. lia. }
  destruct ((48 <=? u) && (u <=? 57)) eqn:E2; cbn [orb].
  - destruct ((48 <=? u) && (u <=? 52)) eqn:E3; [lia|]. replace ((53 <=? u) && (u <=? 57)) with true by lia. lia.
  - replace ((48 <=? u) && (u <=? 52)) with false by lia. replace ((53 <=? u) && (u <=? 57)) with false by lia. lia.
Qed.
Lemma encode_code n six : is_ascii n -> encodeSymbol n = Ok six -> six = map (byte_of (name_code (upcase n))) [0; 1; 2; 3; 4; 5].
Proof.
  intros Ha E. destruct (encodeSymbol_cases n) as [(-> & E2)|[(_ & _ & E2)|(_ & _ & e & E2)]]; rewrite E2 in E; [| |discriminate E].
  - injection E as <-. reflexivity.
  - injection E as <-. rewrite (to_upper_ascii n Ha), code_upcase. unfold six_bytes, byte_of. cbn [map]. rewrite Z.div_1_r. reflexivity.
Qed.
Lemma fill_bytes syms : forall i b1 b2 c1 c2, Forall (fun s => is_ascii (s_name s)) syms ->
  0 <= i -> 5 * (i + zlen syms) <= 4096 -> zlen b1 = 4096 -> zlen b2 = 4096 -> fill_tables syms i b1 b2 = Ok (c1, c2) ->
  zlen c1 = 4096 /\ zlen c2 = 4096 /\
  (forall x y, 0 <= x -> y <= 5 * i -> sub c1 x y = sub b1 x y /\ sub c2 x y = sub b2 x y) /\
  (forall p, 5 * (i + zlen syms) <= p < 4096 -> znth 0 c1 p = znth 0 b1 p /\ znth 0 c2 p = znth 0 b2 p) /\
  (forall j, 0 <= j < zlen syms ->
     sub c1 (5 * (i + j)) (5 * (i + j) + 5) =
       [ad syms j mod 256; ad syms j / 256; link_addr (lk syms j) mod 256; link_addr (lk syms j) / 256 mod 256; byte_of (name_code (upcase (nm syms j))) 5] /\
     sub c2 (5 * (i + j)) (5 * (i + j) + 5) = map (byte_of (name_code (upcase (nm syms j)))) [0; 1; 2; 3; 4]).
Proof.
  induction syms as [|s syms IH]; intros i b1 b2 c1 c2 Ha Hi Hlen L1 L2 E.
  - injection E as <- <-. split; [exact L1|]. split; [exact L2|]. split; [auto|]. split; [auto|]. intros j Hj. rewrite (@zlen_nil Symbol) in Hj. lia.
  - inversion Ha as [|? ? As Ha']; subst. rewrite zlen_cons in Hlen. pose proof (zlen_nonneg syms). cbn [fill_tables] in E.
    destruct (encodeSymbol (s_name s)) as [six|e|] eqn:Es; cbn [rbind] in E; [|discriminate E|discriminate E].
    pose proof (encode_code _ _ As Es) as E6. clear Es. replace (4096 <? i * 5 + 5) with false in E by lia.
    remember [s_addr s mod 256; s_addr s / 256; (if negb (s_link s =? -1) then s_link s * 5 + 0xD000 else 0) mod 256; u8 ((if negb (s_link s =? -1) then s_link s * 5 + 0xD000 else 0) / 256); znth 0 six 5] as e1 eqn:Ee1.
    remember (sub six 0 5) as e2 eqn:Ee2.
    assert (Le1 : zlen e1 = 5) by (rewrite Ee1; reflexivity).
    assert (Ve2 : e2 = map (byte_of (name_code (upcase (s_name s)))) [0; 1; 2; 3; 4]) by (rewrite Ee2, E6; reflexivity).
    assert (Le2 : zlen e2 = 5) by (rewrite Ve2; reflexivity).
    assert (Ve1 : e1 = [s_addr s mod 256; s_addr s / 256; link_addr (s_link s) mod 256; link_addr (s_link s) / 256 mod 256; byte_of (name_code (upcase (s_name s))) 5]).
    { rewrite Ee1, E6. unfold u8, link_addr. replace (if negb (s_link s =? -1) then s_link s * 5 + 53248 else 0) with (if s_link s =? -1 then 0 else 53248 + 5 * s_link s); [reflexivity|].
      destruct (s_link s =? -1); cbn [negb]; lia. }
    clear Ee1 Ee2 E6.
    destruct (IH (i + 1) (upd b1 (i * 5) e1) (upd b2 (i * 5) e2) c1 c2 Ha' ltac:(lia) ltac:(lia) ltac:(rewrite zlen_upd; lia) ltac:(rewrite zlen_upd; lia) E)
      as (Lc1 & Lc2 & Hbefore & Hafter & Hin).
    split; [exact Lc1|]. split; [exact Lc2|]. split; [|split].
    + intros x y Hx Hy. destruct (Hbefore x y Hx) as [-> ->]; [lia|]. split; apply sub_upd_before; lia.
    + intros p Hp. rewrite zlen_cons in Hp. destruct (Hafter p ltac:(lia)) as [-> ->]. rewrite !znth_upd by lia.
      replace ((i * 5 <=? p) && (p <? i * 5 + zlen e1)) with false by lia. replace ((i * 5 <=? p) && (p <? i * 5 + zlen e2)) with false by lia. split; reflexivity.
    + intros j Hj. rewrite zlen_cons in Hj. unfold ad, lk, nm in *. destruct (Z.eq_dec j 0) as [->|Hj0].
      * rewrite !znth_cons_0. destruct (Hbefore (5 * (i + 0)) (5 * (i + 0) + 5)) as [-> ->]; [lia|lia|].
        replace (5 * (i + 0)) with (i * 5) by lia. rewrite <- Ve1, <- Ve2. split; apply sub_upd_same; lia.
      * rewrite !znth_cons_S by lia. destruct (Hin (j - 1)) as [H1 H2]; [lia|].
        replace (i + 1 + (j - 1)) with (i + j) in H1, H2 by lia. split; [exact H1|exact H2].
Qed.
Lemma Write_tabled t (d sm d' sm' : bytes) : floppy d sm -> zlen t = 819 -> Forall (fun s => is_ascii (s_name s)) t ->
  WriteSymbolTable t (d, sm) = ((d', sm'), Ok tt) -> tabled d t d' /\ floppy d' sm'.
Proof.
  intros Hfl HL Ha E. unfold WriteSymbolTable in E.
  destruct (fill_tables t 0 (zeros 0x1000) (zeros 0x1000)) as [[b1 b2]|e|] eqn:Ef; [|discriminate E|discriminate E].
  destruct (fill_bytes t 0 _ _ _ _ Ha ltac:(lia) ltac:(lia) (zlen_zeros 4096 ltac:(lia)) (zlen_zeros 4096 ltac:(lia)) Ef) as (L1 & L2 & _ & Hafter & Hin).
  assert (N1 : b1 <> []) by (intros X; rewrite X in L1; discriminate L1). assert (N2 : b2 <> []) by (intros X; rewrite X in L2; discriminate L2).
  unfold sbind in E. destruct (WriteFile 3 b1 true (d, sm)) as [[d1 sm1] [x1|e|]] eqn:E1; cbn [untag] in E; [|discriminate E|discriminate E].
  destruct (WriteFile 4 b2 true (d1, sm1)) as [[d2 sm2] [x2|e|]] eqn:E2; cbn [untag] in E; [|discriminate E|discriminate E].
  unfold sret in E. injection E as <- <-.
  destruct (WriteFile_placed 3 _ _ _ _ _ _ _ Hfl ltac:(unfold legal; lia) N1 E1) as [P1 Fl1].
  destruct (WriteFile_placed 4 _ _ _ _ _ _ _ Fl1 ltac:(unfold legal; lia) N2 E2) as [P2 Fl2].
  split; [|exact Fl2]. exists b1, b2, d1. split; [|split; [exact P1|exact P2]].
  constructor; [split; assumption| |].
  - intros i Hi. destruct (Hin i ltac:(lia)) as [H1 H2]. rewrite Z.add_0_l in H1, H2. split; assumption.
  - destruct (Hafter 4095 ltac:(lia)) as [-> ->]. split; reflexivity.
Qed.

(** ** Names on a disk *)
Lemma read_ascii b1 b2 ks : forall t, read_entries b1 b2 ks = Ok t -> Forall (fun s => is_ascii (s_name s)) t.
Proof.
  induction ks as [|k ks IH]; intros t; cbn [read_entries]; [intros E; injection E as <-; constructor|].
  destruct (read_entry b1 b2 (5 * k)) as [s|e|] eqn:E1; cbn [rbind]; [|discriminate|discriminate].
  destruct (read_entries b1 b2 ks) as [t'|e|]; cbn [rbind]; [|discriminate|discriminate].
  intros E; injection E as <-. constructor; [|apply IH; reflexivity].
  unfold read_entry in E1. cbv zeta in E1. destruct (_ =? 0) in E1; [injection E1 as <-; constructor|].
  match type of E1 with rbind ?r _ = _ => destruct r as [l|e|]; cbn [rbind] in E1; [|discriminate E1|discriminate E1] end. injection E1 as <-. cbn [s_name].
  apply alnum_ascii. apply decodeSymbol_alnum.
Qed.
Lemma opened_ascii d o t : zlen d = 143360 -> NewOperator d = Ok o -> op_ST o = Some t -> zlen t = 819 /\ Forall (fun s => is_ascii (s_name s)) t.
Proof.
  intros Hd En Eo. destruct (NewOperator_ok d o Hd En) as (Hok & Ed & Em & Et). split; [apply (ok_st _ Hok t Eo)|]. rewrite Eo in Et. unfold opened_table in Et.
  destruct (ReadSymbolTable (stored_map d) d) as [t'|e|] eqn:HR; try discriminate Et. injection Et as ->.
  unfold ReadSymbolTable in HR. destruct (ReadFile (stored_map d) d 3) as [b1|e|]; cbn [rbind] in HR; [|discriminate HR|discriminate HR].
  destruct (negb _) in HR; [discriminate HR|]. destruct (ReadFile (stored_map d) d 4) as [b2|e|]; cbn [rbind] in HR; [|discriminate HR|discriminate HR].
  destruct (negb _) in HR; [discriminate HR|]. unfold parseSymbolTable in HR.
  destruct (read_entries b1 b2 (zrange 819)) as [t2|e|] eqn:E2; cbn [rbind] in HR; [|discriminate HR|discriminate HR].
  destruct (check_links t2 0 t2); cbn [rbind] in HR; [|discriminate HR|discriminate HR]. injection HR as <-. apply (read_ascii _ _ _ _ E2).
Qed.
Lemma names_ascii t t' : zlen t' = zlen t -> Forall (fun s => is_ascii (s_name s)) t -> (forall j, 0 <= j < zlen t -> nm t' j = nm t j \/ is_ascii (nm t' j)) ->
  Forall (fun s => is_ascii (s_name s)) t'.
Proof.
  intros HL H Hn. apply Forall_forall. intros s Hs. destruct (In_znth sym0 t' s Hs) as (j & Hj & <-). change (is_ascii (nm t' j)).
  destruct (Hn j ltac:(lia)) as [E|E]; [|exact E]. rewrite E. apply (Forall_znth _ sym0 t j H). lia.
Qed.

(** ** The operator *)
Lemma Put_placed d o n s ftv a ow o' ex : zlen d = 143360 -> NewOperator d = Ok o -> s <> [] -> is_ascii n ->
  PutFile (FI (Desc n [] 0 0 (zlen s) false ftv) s a) ow o = (o', Ok ex) -> put_changes d (st_of o) n s (op_data o').
Proof.
  intros Hd En Hs Ha E. destruct (NewOperator_ok d o Hd En) as (Hok & Ed & Em & Et). pose proof (ok_fl _ Hok) as Hfl. rewrite Ed, Em in Hfl.
  unfold PutFile in E. cbn [fi_desc_ fi_data d_type d_length d_name] in E. rewrite Z.eqb_refl in E. cbn [negb] in E.
  destruct (negb (ftv =? FiletypeBinary)); [discriminate E|].
  pose proof (meaning_exact d (st_of o) n Hd) as HM.
  destruct (FilesForCompoundName (st_of o) n) as [[[nf mf] q]|er|]; [|discriminate E|contradiction].
  cbv zeta in HM, E. rewrite Em in E. remember (if nf =? 0 then FirstFreeFile (stored_map d) else nf) as num eqn:Enum. clear Enum.
  destruct HM as [(H0 & Hl & e & M & He)|[-> _]]; [|destruct (if beq q [] then _ else _) in E; discriminate E].
  assert (Hsy : q = [] \/ exists t, op_ST o = Some t).
  { destruct (beq q []) eqn:Bq; [left; apply beq_eq; exact Bq|]. right. destruct (op_ST o) as [t|]; [exists t; reflexivity|]. cbv iota in E. injection E as _ E. discriminate E. }
  destruct (if beq q [] then _ else _) in E; [|discriminate E|discriminate E].
  destruct (Z.eqb_spec num 0) as [|_]; [contradiction|].
  unfold sbind at 1 in E. unfold on_disk at 1 in E. rewrite Ed, Em in E.
  match type of E with context [WriteFile num s ow ?x] => destruct (WriteFile num s ow x) as [[d1 sm1] [x1|er|]] eqn:EW end; [|discriminate E|discriminate E].
  destruct (WriteFile_placed num s ow d _ d1 sm1 x1 Hfl Hl Hs EW) as [P1 Fl1].
  exists num, q, e. split; [exact M|].
  destruct (beq q []) eqn:Bq.
  { apply beq_eq in Bq. rewrite andb_false_r in E. unfold sret in E. injection E as <- _. right. split; [right; exact Bq|exact P1]. }
  apply beq_neq in Bq. destruct Hsy as [|(t & Eo)]; [contradiction|].
  rewrite <- (He Bq) in E. destruct e; cbn [andb negb] in E.
  2:{ unfold sret in E. injection E as <- _. right. split; [left; reflexivity|exact P1]. }
  left. split; [reflexivity|]. split; [exact Bq|].
  assert (Est : st_of o = t) by (unfold st_of; rewrite Eo; reflexivity). rewrite Eo in E. cbn [op_data op_SM] in E.
  change (st_of (Op d1 sm1 (Some t))) with t in E. rewrite Est.
  assert (Hu : u16 (57088 + num) = 0xDF00 + num) by (unfold u16, legal in *; rewrite Z.mod_small; lia). rewrite Hu in E.
  destruct (AddSymbol t q (0xDF00 + num)) as [t1 [[]|er|]] eqn:EA; [|discriminate E|discriminate E].
  exists t1, d1. split; [apply AddSymbol_added; exact EA|]. split; [exact P1|].
  unfold sbind, on_disk in E. cbn [op_data op_SM op_ST] in E.
  match type of E with context [WriteSymbolTable t1 ?x] => destruct (WriteSymbolTable t1 x) as [[d2 sm2] [[]|er|]] eqn:EW2 end; [|discriminate E|discriminate E].
  unfold sret in E. injection E as <- _. cbn [op_data].
  destruct (opened_ascii d o t Hd En Eo) as [HL Hasc]. destruct (AddSymbol_changed _ _ _ _ EA) as (_ & p & n' & (HL1 & _) & _).
  assert (Haq : is_ascii q).
  { destruct M; try exact Ha; [constructor| |]; apply Forall_app in Ha as [_ Ha]; inversion Ha; assumption. }
  apply (Write_tabled t1 d1 sm1 d2 sm2 Fl1); [lia| |exact EW2].
  apply (names_ascii t); [exact HL1|exact Hasc|]. intros j Hj. destruct (AddSymbol_names _ _ _ _ EA j Hj) as [X|X]; [right; rewrite X; exact Haq|left; exact X].
Qed.
Lemma Delete_changes d o n o' ex : zlen d = 143360 -> NewOperator d = Ok o -> Delete n o = (o', Ok ex) -> rm_changes d (st_of o) n (op_data o').
Proof.
  intros Hd En E. destruct (NewOperator_ok d o Hd En) as (Hok & Ed & Em & Et). pose proof (ok_fl _ Hok) as Hfl. rewrite Ed, Em in Hfl.
  unfold Delete in E. destruct (FileForName_spec (st_of o) n) as [(f & Ef & Hres & Hf)|[Ef Hno]]; rewrite Ef in E; [|discriminate E].
  cbv zeta in E. rewrite Ed, Em in E.
  destruct (Delete_disk d (stored_map d) f Hfl Hf) as (EP & Fl1 & _). pose proof (Delete_placed d (stored_map d) f Hfl Hf) as P1. rewrite EP in E.
  remember (upd d 2512 (SMDelete (stored_map d) f)) as d1 eqn:E1. clear E1 EP.
  exists f. split; [exact Hres|]. destruct (op_ST o) as [t|] eqn:Eo.
  2:{ injection E as <- _. right. split; [|exact P1]. unfold st_of. rewrite Eo. intros i (Hi & _). rewrite (@zlen_nil Symbol) in Hi. lia. }
  assert (Est : st_of o = t) by (unfold st_of; rewrite Eo; reflexivity). rewrite Est.
  pose proof (DeleteSymbol_names t n) as HN. pose proof (find_name_spec t n 0) as Hfn. destruct (find_name t n 0) as [i|].
  2:{ rewrite HN in E. injection E as <- _. right. split; [|exact P1]. intros i (Hi & Hn & _). rewrite equal_fold_sym, (Hfn i Hi) in Hn. discriminate Hn. }
  clear Hfn. destruct HN as (Hi & Hfi & t1 & ED & HL1 & Hnm). rewrite ED in E. left. exists t1, d1. split; [apply DeleteSymbol_deleted; exact ED|]. split; [exact P1|].
  unfold sbind, on_disk in E. cbn [op_data op_SM op_ST] in E.
  match type of E with context [WriteSymbolTable t1 ?x] => destruct (WriteSymbolTable t1 x) as [[d2 sm2] [[]|er|]] eqn:EW2 end; [|discriminate E|discriminate E].
  unfold sret in E. injection E as <- _. cbn [op_data]. destruct (opened_ascii d o t Hd En Eo) as [HL Hasc].
  apply (Write_tabled t1 d1 _ d2 sm2 Fl1); [lia| |exact EW2].
  apply (names_ascii t); [exact HL1|exact Hasc|]. intros j Hj. rewrite (Hnm j Hj). destruct (j =? i); [right; constructor|left; reflexivity].
Qed.

(** ** What the changes are is determined *)
Lemma tables_one t b1 b2 c1 c2 : tables t b1 b2 -> tables t c1 c2 -> b1 = c1 /\ b2 = c2.
Proof.
  intros B C. destruct (tb_size _ _ _ B) as [LB1 LB2]. destruct (tb_size _ _ _ C) as [LC1 LC2].
  destruct (tb_last _ _ _ B) as [TB1 TB2]. destruct (tb_last _ _ _ C) as [TC1 TC2].
  assert (G : forall (b c : bytes), zlen b = 4096 -> zlen c = 4096 -> znth 0 b 4095 = 0 -> znth 0 c 4095 = 0 ->
    (forall i, 0 <= i < 819 -> sub b (5 * i) (5 * i + 5) = sub c (5 * i) (5 * i + 5)) -> b = c).
  { intros b c Lb Lc Tb Tc H. apply (znth_ext 0); [lia|]. intros p Hp.
    assert (p = 4095 \/ 0 <= p < 4095) as [->|Hp2] by lia; [congruence|].
    specialize (H (p / 5) ltac:(lia)).
    assert (E : znth 0 (sub b (5 * (p / 5)) (5 * (p / 5) + 5)) (p mod 5) = znth 0 (sub c (5 * (p / 5)) (5 * (p / 5) + 5)) (p mod 5)) by (rewrite H; reflexivity).
    rewrite !znth_sub in E by lia. replace (5 * (p / 5) + p mod 5) with p in E by lia. exact E. }
  split; apply G; try assumption; intros i Hi; destruct (tb_entry _ _ _ B i Hi) as [EB1 EB2]; destruct (tb_entry _ _ _ C i Hi) as [EC1 EC2]; congruence.
Qed.
Lemma tabled_one d t d1 d2 : tabled d t d1 -> tabled d t d2 -> d1 = d2.
Proof.
  intros (b1 & b2 & e & Tb & P1 & P2) (c1 & c2 & g & Tc & Q1 & Q2). destruct (tables_one _ _ _ _ _ Tb Tc) as [<- <-].
  rewrite (placed_one _ _ _ _ _ P1 Q1) in P2. apply (placed_one _ _ _ _ _ P2 Q2).
Qed.
Lemma put_changes_one d t n s d1 d2 : put_changes d t n s d1 -> put_changes d t n s d2 -> d1 = d2.
Proof.
  intros (f & q & e & M1 & H1) (f2 & q2 & e2 & M2 & H2). destruct (meaning_one _ _ _ _ _ _ _ _ _ M1 M2) as (<- & <- & <-).
  destruct H1 as [(E1 & Q1 & t1 & x1 & A1 & P1 & T1)|[N1 P1]]; destruct H2 as [(E2 & Q2 & t2 & x2 & A2 & P2 & T2)|[N2 P2]].
  - rewrite <- (added_one _ _ _ _ _ A1 A2) in T2. rewrite (placed_one _ _ _ _ _ P1 P2) in T1. apply (tabled_one _ _ _ _ T1 T2).
  - destruct N2 as [X|X]; [congruence|contradiction].
  - destruct N1 as [X|X]; [congruence|contradiction].
  - apply (placed_one _ _ _ _ _ P1 P2).
Qed.
Lemma resolves_one t n f g : resolves t n f -> resolves t n g -> f = g.
Proof.
  intros [H1|[N1 H1]] [H2|[N2 H2]]; [apply (numeric_one _ _ _ H1 H2)|contradiction (N2 _ H1)|contradiction (N1 _ H2)|].
  apply (symbol_file_one t n f g N1 H1 H2).
Qed.
Lemma rm_changes_one d t n d1 d2 : rm_changes d t n d1 -> rm_changes d t n d2 -> d1 = d2.
Proof.
  intros (f & R1 & H1) (g & R2 & H2). rewrite <- (resolves_one _ _ _ _ R1 R2) in H2. clear g R2.
  assert (Hx : forall t', deleted t n t' -> exists i, first_named t n i) by (intros t' (i & _ & H & _); exists i; exact H).
  destruct H1 as [(t1 & x1 & A1 & P1 & T1)|[N1 P1]]; destruct H2 as [(t2 & x2 & A2 & P2 & T2)|[N2 P2]].
  - rewrite <- (deleted_one _ _ _ _ A1 A2) in T2. rewrite (placed_one _ _ _ _ _ P1 P2) in T1. apply (tabled_one _ _ _ _ T1 T2).
  - destruct (Hx _ A1) as [i Hi]. contradiction (N2 i Hi).
  - destruct (Hx _ A2) as [i Hi]. contradiction (N1 i Hi).
  - apply (placed_one _ _ _ _ _ P1 P2).
Qed.
Lemma placed_exact : (forall d f c d1 d2, placed d f c d1 -> placed d f c d2 -> d1 = d2) /\
  (forall d t n s d1 d2, put_changes d t n s d1 -> put_changes d t n s d2 -> d1 = d2) /\
  (forall d t n d1 d2, rm_changes d t n d1 -> rm_changes d t n d2 -> d1 = d2).
Proof. split; [exact placed_one|]. split; [exact put_changes_one|exact rm_changes_one]. Qed.

(** ** The commands *)
Section Run.
  Variable iter : list (Z * Subdirectory) -> list (Z * Subdirectory).
  Variable fuel : nat.
  Lemma put_changes_run order system ft ow addr img tgt src w w' s :
    run (PutCmd_Run iter fuel order system ft ow addr img tgt src) w = (w', Ok tt) ->
    input w src s -> s <> [] -> is_ascii tgt ->
    exists c o d t d' new,
      input w img c /\ naked_image c o d /\ (ProdosSpec.an_order iter -> only_seen img order system c o d) /\ names_on d t /\
      output w w' img new /\ naked_image new o d' /\ put_changes d t tgt s d'.
  Proof.
    intros H Hs Hne Ha. destruct (put_parts iter fuel _ _ _ _ _ _ _ _ _ _ _ H Hs Hne) as (c & o & op & op2 & ftv & ex & new & Hc & Hopen & _ & EP & Hout & Hnew).
    destruct (naked_opened iter fuel _ _ _ _ _ _ Hopen) as (_ & Hr & En & Hd & Hre & Hni & Em & Hnm).
    exists c, o, (op_data op), (st_of op), (op_data op2), new. split; [exact Hc|]. split; [exact Hni|].
    split; [apply (opened_seen iter fuel); exact Hopen|]. split; [exact Hnm|]. split; [exact Hout|]. split; [exact Hnew|].
    apply (Put_placed _ op tgt s ftv addr ow op2 ex Hd En Hne Ha EP).
  Qed.
  Lemma mkhello_changes_run order img name address start0 w w' :
    run (MkHelloCmd_Run iter fuel order img name address start0) w = (w', Ok tt) ->
    0 <= address < 65536 -> 0 <= start0 < 65536 ->
    let start := if start0 =? 0xFFFF then address else start0 in
    exists c o d t d' new f,
      input w img c /\ naked_image c o d /\ (ProdosSpec.an_order iter -> only_seen img order (s2b "auto") c o d) /\ names_on d t /\ target t name f /\
      output w w' img new /\ naked_image new o d' /\
      put_changes d t (s2b "DF01:FHELLO") [0x20; 0x40; 0x03; 0x6D; 0x01; 0xDC; 0x2C; f; 0xDF; 0x2C; 0; address / 256; 0xD8; 0x4C; start mod 256; start / 256] d'.
  Proof.
    intros H Ha Hs. unfold MkHelloCmd_Run in H. cbv zeta in *. remember (if start0 =? 0xFFFF then address else start0) as start eqn:Est.
    assert (Hst : 0 <= start < 65536) by (destruct (start0 =? 65535); lia). clear Est.
    destruct (Z.eqb_spec (address mod 256) 0) as [Ham|Ham]; cbn [negb] in H; [|discriminate].
    destruct (Z.ltb_spec start address) as [Hlt|Hlt]; [discriminate|].
    rewrite run_pbind in H. destruct (run (OpenFilename iter fuel img order (s2b "auto")) w) as [w1 [[op o]|e|]] eqn:Eo; [|discriminate|discriminate].
    destruct (open_run _ _ _ _ _ _ _ _ _ Eo) as (c & Hc & Hopen & Hsf & Hso & _ & _ & Hw1).
    destruct op as [d0|op|d0]; [discriminate| |discriminate].
    rewrite run_pbind in H. unfold plift in H at 1. cbn [run] in H.
    destruct (FilesForCompoundName (st_of op) name) as [[[nf mf] sy]|e|] eqn:EF; [|discriminate|discriminate].
    destruct ((nf =? 0) && (mf =? 0)) eqn:E0; [discriminate|].
    remember (if nf =? 0 then mf else nf) as f eqn:Ef.
    remember (hello_program f address start) as prog eqn:Epr.
    destruct (Op_PutFile (ONaked op) (FI (Desc (s2b "DF01:" ++ helloName) [] 0 0 (zlen prog) false FiletypeBinary) prog 0) true) as [op' r] eqn:EP. rewrite run_pbind in H. unfold plift in H. cbn [run] in H.
    destruct r as [ex|e|]; [|discriminate|discriminate].
    cbn [Op_PutFile] in EP. destruct (PutFile (FI (Desc (s2b "DF01:" ++ helloName) [] 0 0 (zlen prog) false FiletypeBinary) prog 0) true op) as [op2 r2] eqn:EP2. cbn [lift_op] in EP. injection EP as <- ->.
    destruct (naked_opened iter fuel _ _ _ _ _ _ Hopen) as (_ & Hr & En & Hd & Hre & Hni & Em & Hnm).
    pose proof (reached_ok _ Hre) as Hok.
    assert (Hne : prog <> []) by (rewrite Epr; discriminate).
    destruct (put_finish c o op op2 img w w1 w' (FI (Desc (s2b "DF01:" ++ helloName) [] 0 0 (zlen prog) false FiletypeBinary) prog 0) true ex Hr Hok Hne Hsf Hso EP2 H) as (new & Hout & Hnew).
    apply target_files in EF.
    assert (Hf : target (st_of op) name f).
    { destruct EF as [(-> & -> & _)|(Hnz & Ht2 & Hx)]; [discriminate E0|]. replace (nf =? 0) with false in Ef by lia. subst f. exact Ht2. }
    exists c, o, (op_data op), (st_of op), (op_data op2), new, f. split; [exact Hc|]. split; [exact Hni|].
    split; [apply (opened_seen iter fuel); exact Hopen|]. split; [exact Hnm|]. split; [exact Hf|]. split; [exact Hout|]. split; [exact Hnew|].
    assert (Ep : prog = [0x20; 0x40; 0x03; 0x6D; 0x01; 0xDC; 0x2C; f; 0xDF; 0x2C; 0; address / 256; 0xD8; 0x4C; start mod 256; start / 256]).
    { rewrite Epr. unfold hello_program, u8. replace (address / 256 mod 256) with (address / 256) by lia. replace (start / 256 mod 256) with (start / 256) by lia. reflexivity. }
    rewrite <- Ep. apply (Put_placed _ op (s2b "DF01:FHELLO") prog FiletypeBinary 0 true op2 ex Hd En Hne); [|exact EP2].
    clear. let l := eval vm_compute in (s2b "DF01:FHELLO") in change (is_ascii l). unfold is_ascii. repeat (apply Forall_cons; [lia|]). apply Forall_nil.
  Qed.
  Lemma rm_changes_run order system missingOk img name w w' :
    run (DeleteCmd_Run iter fuel order system missingOk img name) w = (w', Ok tt) ->
    exists c o d t d' new,
      input w img c /\ naked_image c o d /\ (ProdosSpec.an_order iter -> only_seen img order system c o d) /\ names_on d t /\
      output w w' img new /\ naked_image new o d' /\ rm_changes d t name d'.
  Proof.
    intros H. unfold DeleteCmd_Run in H.
    rewrite run_pbind in H. destruct (run (OpenFilename iter fuel img order system) w) as [w1 [[op o]|e|]] eqn:Eo; [|discriminate|discriminate].
    destruct (open_run _ _ _ _ _ _ _ _ _ Eo) as (c & Hc & Hopen & Hsf & Hso & _ & _ & Hw1).
    destruct (Op_Delete op name) as [op' r] eqn:EP. rewrite run_pbind in H. unfold plift in H. cbn [run] in H.
    destruct r as [ex|e|]; [|discriminate|discriminate].
    destruct op as [d0|op|d0]; cbn [Op_Delete] in EP.
    { cbn in EP. injection EP as _ EP. discriminate EP. }
    2:{ cbn in EP. injection EP as _ EP. discriminate EP. }
    destruct (Delete name op) as [op2 r2] eqn:EP2. cbn [lift_op] in EP. injection EP as <- ->.
    destruct (naked_opened iter fuel _ _ _ _ _ _ Hopen) as (_ & Hr & En & Hd & Hre & Hni & Em & Hnm).
    pose proof (reached_ok _ Hre) as Hok.
    destruct (negb ex && negb missingOk) eqn:Ee; [discriminate|].
    destruct (Delete_inv _ _ _ _ Hok EP2) as [Hok2 _].
    destruct (writeback_run c o (op_data op) op2 img Hr (fl_len _ _ (ok_fl _ Hok2))) as (new & Hn & Hrun).
    rewrite Hrun in H. apply CmdStmtProofs.run_output in H. apply (CmdStmtProofs.output_files w w1 w' img new Hsf Hso) in H.
    destruct (new_image new o op2 Hok2 Hn) as [Hnew _].
    exists c, o, (op_data op), (st_of op), (op_data op2), new. split; [exact Hc|]. split; [exact Hni|].
    split; [apply (opened_seen iter fuel); exact Hopen|]. split; [exact Hnm|]. split; [exact H|]. split; [exact Hnew|].
    apply (Delete_changes _ op name op2 ex Hd En EP2).
  Qed.
End Run.
