(** SupermonRewriteProofs.v -- C70: writing back a symbol table that was read. *)
From Verif Require Import GoBase GoLemmas DiskModel TypesModel
  SupermonModel SupermonSpec SupermonTableSpec SupermonStoreSpec SupermonProofs SupermonSymProofs
  SupermonTabProofs SupermonLinkProofs SupermonNameProofs SupermonOpProofs SupermonNamedProofs SupermonFinalProofs SupermonStmtProofs.
From Coq Require Import ZifyBool ZifyNat Permutation.
Ltac Zify.zify_post_hook ::= Z.div_mod_to_equations.
Local Opaque zrange.

(** Names read from a disk are in upper case, unused entries blank. *)
Definition upper (c : Z) : Prop := 48 <= c <= 57 \/ 65 <= c <= 90.
Lemma decode_loop_upper fuel : forall v r, 0 <= v -> Forall upper r -> Forall upper (decode_loop fuel v r).
Proof.
  induction fuel as [|fuel IH]; intros v r Hv Hr; cbn [decode_loop]; [exact Hr|]. cbv zeta.
  destruct (Z.ltb_spec 0 (v mod 32)); [|exact Hr].
  destruct (Z.ltb_spec (v mod 32) 27).
  - apply IH; [lia|]. apply Forall_app. split; [exact Hr|]. constructor; [unfold upper; lia | constructor].
  - destruct (_ =? 0); (apply IH; [lia|]; apply Forall_app; split; [exact Hr|]; constructor; [unfold upper; lia | constructor]).
Qed.
Lemma upcase_upper n : Forall upper n -> upcase n = n.
Proof.
  induction 1 as [|c n H _ IH]; [reflexivity|]. unfold upcase in *. cbn [map]. rewrite IH. unfold upper in H. replace ((97 <=? c) && (c <=? 122)) with false by lia. reflexivity.
Qed.
Lemma read_entry_canon b1 b2 k s : read_entry b1 b2 k = Ok s -> canon s = s.
Proof.
  unfold read_entry. generalize (le16 (znth 0 b1 k) (znth 0 b1 (k + 1))) as a. intros a. destruct (Z.eqb_spec a 0) as [|Ha].
  { intros E. inversion E; subst. reflexivity. }
  match goal with |- context[rbind ?x _] => destruct x as [l|e|] end; cbn [rbind]; [|discriminate|discriminate].
  intros E. inversion E; subst. unfold canon. cbn [s_addr s_name s_link]. destruct (Z.eqb_spec a 0); [contradiction|]. f_equal. apply upcase_upper.
  unfold decodeSymbol. cbv zeta. apply decode_loop_upper; [unfold u64; apply Z.mod_pos_bound; reflexivity | constructor].
Qed.
Lemma read_entries_canon b1 b2 ks : forall t, read_entries b1 b2 ks = Ok t -> map canon t = t.
Proof.
  induction ks as [|k ks IH]; intros t; cbn [read_entries]; [intros E; inversion E; reflexivity|].
  destruct (read_entry b1 b2 (5 * k)) as [s|e|] eqn:E1; cbn [rbind]; [|discriminate|discriminate].
  destruct (read_entries b1 b2 ks) as [t'|e|]; cbn [rbind]; [|discriminate|discriminate].
  intros E; inversion E; subst. cbn [map]. rewrite (read_entry_canon _ _ _ _ E1), IH; reflexivity.
Qed.
Lemma ReadSymbolTable_canon sm d t : ReadSymbolTable sm d = Ok t -> map canon t = t.
Proof.
  intros E. destruct (ReadSymbolTable_parse _ _ _ E) as (b1 & b2 & Ep). unfold parseSymbolTable in Ep.
  destruct (read_entries b1 b2 (zrange 819)) as [t'|e|] eqn:Er; cbn [rbind] in Ep; [|discriminate|discriminate].
  destruct (check_links t' 0 t') as [[]|e|]; cbn [rbind] in Ep; [|discriminate|discriminate]. inversion Ep; subst. eapply read_entries_canon. exact Er.
Qed.
Lemma not_all_valid t : Forall read_ok t -> Forall (fun s => valid_name (s_name s)) t \/ exists s, In s t /\ ~ valid_name (s_name s).
Proof.
  induction 1 as [|s t (_ & Ha & _) _ IH]; [left; constructor|].
  assert (valid_name (s_name s) \/ ~ valid_name (s_name s)) as [V|V].
  { destruct (encodeSymbol_total (s_name s)) as [(six & E & _)|(e & E)]; [left; eapply encodes_valid; eassumption|]. right. intros V. destruct (encode_valid _ V) as (six & E' & _). congruence. }
  - destruct IH as [IH|(s' & Hin & V')]; [left; constructor; assumption | right; exists s'; split; [right; exact Hin | exact V']].
  - right. exists s. split; [left; reflexivity | exact V].
Qed.
Lemma fill_bad t : forall i b1 b2, 0 <= i -> 5 * (i + zlen t) <= 4096 -> zlen b1 = 4096 -> zlen b2 = 4096 -> Forall read_ok t -> (exists s, In s t /\ ~ valid_name (s_name s)) -> exists e, fill_tables t i b1 b2 = Err e.
Proof.
  intros i b1 b2 Hi Hl L1 L2 R (s & Hin & V). destruct (fill_tables_any t i b1 b2 Hi Hl L1 L2) as [H|(c1 & c2 & E & _)]; [exact H|]. exfalso.
  apply fill_names in E. rewrite Forall_forall in *. destruct (E s Hin) as [six E']. apply V. apply (encodes_valid _ six); [apply (R s Hin) | exact E'].
Qed.
Lemma C70_partial_lemma : forall (d sm : bytes) t, floppy d sm -> bytes_ok d -> ReadSymbolTable sm d = Ok t ->
  (Forall (fun s => valid_name (s_name s)) t -> exists d' sm', WriteSymbolTable t (d, sm) = ((d', sm'), Ok tt) /\ floppy d' sm' /\ ReadSymbolTable sm' d' = Ok t /\
     forall g, g <> 3 -> g <> 4 -> legal g -> owned sm' g = owned sm g /\ content d' sm' g = content d sm g) /\
  (~ Forall (fun s => valid_name (s_name s)) t -> exists e, WriteSymbolTable t (d, sm) = ((d, sm), Err e)).
Proof.
  intros d sm t Hf Hb E. destruct (ReadSymbolTable_read_ok d sm t (fl_len _ _ Hf) Hb E) as (HL & Hk & Hr). split.
  - intros V. destruct (table_files d sm t (fl_len _ _ Hf) E) as [H3 H4].
    assert (table_ok t) as Ht.
    { split; [exact HL|]. split; [|exact Hk]. rewrite Forall_forall in *. intros s Hs. destruct (Hr s Hs) as (A & _ & B & _). split; [exact A|]. split; [apply (V s Hs) | exact B]. }
    pose proof (zlen_nonneg (owned sm FREE)).
    destruct (WriteSymbolTable_ok t d sm Hf Ht) as (d' & sm' & E1 & E2 & E3 & E4 & _); [lia | lia|]. exists d', sm'. split; [exact E1|]. split; [exact E2|]. split; [rewrite E3, (ReadSymbolTable_canon _ _ _ E); reflexivity | exact E4].
  - intros V. destruct (not_all_valid t Hr) as [V'|V']; [contradiction|].
    destruct (fill_bad t 0 (zeros 0x1000) (zeros 0x1000)) as [e Ee]; [lia | lia | reflexivity | reflexivity | exact Hr | exact V'|]. exists e. unfold WriteSymbolTable. rewrite Ee. reflexivity.
Qed.
(** A disk whose table has one symbol, A, for file 5. *)
Definition short_1 : bytes := [0x05; 0xDF; 0; 0; 0] ++ zeros 4091.
Definition short_2 : bytes := [1; 0; 0; 0; 0] ++ zeros 4091.
Definition short_table : list Symbol := Sym 0xDF05 (s2b "A") (-1) :: repeat sym0 818.
Lemma C70_refuted_lemma : exists (d sm : bytes) t, floppy d sm /\ ReadSymbolTable sm d = Ok t /\ ByName t (s2b "A") = 0xDF05 /\ exists e, WriteSymbolTable t (d, sm) = ((d, sm), Err e).
Proof.
  destruct ex_free as [F1 F2].
  destruct (WriteFile_step 3 short_1 true ex_blank ex_map ex_floppy) as (d1 & sm1 & _ & G1 & C1 & O1 & Fr1 & Oth1);
    [unfold legal; lia | discriminate | rewrite F1, F2 by (unfold legal; lia); vm_compute; discriminate | reflexivity|].
  destruct (Oth1 4 ltac:(lia) ltac:(unfold legal; lia)) as [O4 _].
  destruct (WriteFile_step 4 short_2 true d1 sm1 G1) as (d2 & sm2 & _ & G2 & C2 & O2 & Fr2 & Oth2);
    [unfold legal; lia | discriminate | rewrite Fr1, O4, F1, !F2 by (unfold legal; lia); vm_compute; discriminate | reflexivity|].
  destruct (Oth2 3 ltac:(lia) ltac:(unfold legal; lia)) as [O3 C3].
  assert (padded short_1 = short_1) as P1 by (vm_compute; reflexivity). assert (padded short_2 = short_2) as P2 by (vm_compute; reflexivity).
  exists d2, sm2, short_table. split; [exact G2|]. split.
  - unfold ReadSymbolTable. rewrite !ReadFile_spec by apply (fl_len _ _ G2). cbn [rbind]. rewrite C3, C1, C2, P1, P2. vm_compute. reflexivity.
  - split; [reflexivity|]. assert (exists e, fill_tables short_table 0 (zeros 0x1000) (zeros 0x1000) = Err e) as [e E] by (eexists; vm_compute; reflexivity).
    exists e. unfold WriteSymbolTable. rewrite E. reflexivity.
Qed.
Lemma C70_example_lemma : exists d sm, floppy d sm /\ bytes_ok d /\ ReadSymbolTable sm d = Ok ex_table /\ Forall (fun s => valid_name (s_name s)) ex_table.
Proof.
  destruct ex_free as [F1 F2]. destruct ex_table_ok as (T1 & T2 & T3 & T4).
  destruct (WriteSymbolTable_ok ex_table ex_blank ex_map ex_floppy T1) as (d & sm & E & Hf & HR & _).
  { rewrite F1, !F2, (@zlen_nil Z) by (unfold legal; lia). lia. }
  { rewrite F1, !F2, (@zlen_nil Z) by (unfold legal; lia). lia. }
  assert (Forall s_ok ex_table) as Hs by apply T1.
  exists d, sm. split; [exact Hf|]. split.
  { apply (WriteSymbolTable_bytes ex_table ex_blank ex_map d sm ex_floppy (proj1 T1)); [|exact ex_blank_bytes | exact E]. eapply Forall_impl; [|exact Hs]. intros s (H & _). exact H. }
  split; [rewrite HR, T4; reflexivity|]. eapply Forall_impl; [|exact Hs]. intros s (_ & H & _). exact H.
Qed.
