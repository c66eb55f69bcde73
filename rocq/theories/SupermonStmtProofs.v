(** SupermonStmtProofs.v -- the exact statements of PropertiesSupermon.v and its examples. *)
From Verif Require Import GoBase GoLemmas DiskModel TypesModel
  SupermonModel SupermonSpec SupermonTableSpec SupermonStoreSpec SupermonProofs SupermonSymProofs
  SupermonTabProofs SupermonLinkProofs SupermonNameProofs SupermonOpProofs SupermonNamedProofs
  SupermonFinalProofs.
From Coq Require Import ZifyBool ZifyNat Permutation Sorted.
Ltac Zify.zify_post_hook ::= Z.div_mod_to_equations.
Local Opaque zrange.

Lemma owned_ex sm f : owned sm f <> [] <-> exists k, 0 <= k < 560 /\ znth 0 sm k = f.
Proof.
  split.
  - intros H. destruct (owned sm f) as [|k l] eqn:E; [contradiction (H eq_refl)|]. exists k. apply In_owned. rewrite E. left; reflexivity.
  - intros (k & Hk) E. apply In_owned in Hk. rewrite E in Hk. destruct Hk.
Qed.
Lemma C26_lemma : forall f c ow (d sm : bytes) d' sm' ex, floppy d sm -> legal f -> c <> [] ->
  WriteFile f c ow (d, sm) = ((d', sm'), Ok ex) ->
  ReadFile sm' d' f = Ok (c ++ zeros ((- zlen c) mod 256)) /\
  (ex = true <-> exists k, 0 <= k < 560 /\ znth 0 sm k = f).
Proof.
  intros f c ow d sm d' sm' ex Hf Hl Hc E. destruct (WriteFile_success f c ow d sm d' sm' ex Hf Hl Hc E) as (_ & R & X & _).
  split.
  - rewrite R. unfold padded, nsec. do 3 f_equal. lia.
  - rewrite X. apply owned_ex.
Qed.
Lemma C27_lemma : forall f c ow (d sm : bytes) d' sm' ex, floppy d sm -> legal f -> c <> [] ->
  WriteFile f c ow (d, sm) = ((d', sm'), Ok ex) ->
  floppy d' sm' /\
  (forall g, g <> f -> legal g -> owned sm' g = owned sm g /\ ReadFile sm' d' g = ReadFile sm d g) /\
  owned sm' RESERVED = owned sm RESERVED /\
  (forall k, 0 <= k < 560 -> znth 0 sm k = RESERVED -> ~ (9 <= k <= 11) -> sec d' k = sec d k) /\
  sub d' (9 * 256) (9 * 256 + 0xD0) = sub d (9 * 256) (9 * 256 + 0xD0).
Proof.
  intros f c ow d sm d' sm' ex Hf Hl Hc E.
  destruct (WriteFile_success f c ow d sm d' sm' ex Hf Hl Hc E) as (F & _ & _ & _ & _ & O & R & S1 & S2).
  split; [exact F|]. split.
  { intros g Hg Hlg. split; [apply O; [exact Hg | unfold FREE, legal in *; lia] | apply R; assumption]. }
  split; [apply O; unfold RESERVED, FREE, legal in *; lia|]. split; assumption.
Qed.
Lemma C29_lemma :
  (forall f c ow (d sm : bytes) d' sm' ex, floppy d sm -> legal f -> c <> [] ->
     WriteFile f c ow (d, sm) = ((d', sm'), Ok ex) ->
     zlen (owned sm' f) = nsec c /\
     zlen (owned sm' FREE) = zlen (owned sm FREE) + zlen (owned sm f) - nsec c) /\
  (forall f sm, verified sm -> legal f ->
     zlen (owned (SMDelete sm f) f) = 0 /\
     zlen (owned (SMDelete sm f) FREE) = zlen (owned sm FREE) + zlen (owned sm f)).
Proof.
  split.
  - intros f c ow d sm d' sm' ex Hf Hl Hc E.
    destruct (WriteFile_success f c ow d sm d' sm' ex Hf Hl Hc E) as (_ & _ & _ & O1 & O2 & _). auto.
  - intros f sm Hv Hl. destruct (SMDelete_full sm f Hv Hl) as (_ & -> & _ & _ & H). auto.
Qed.
Lemma C26_C29_example_lemma : floppy ex_blank ex_map /\ legal 5 /\
  (exists d' sm', WriteFile 5 (repeat 7 300) false (ex_blank, ex_map) = ((d', sm'), Ok false) /\
     ReadFile sm' d' 5 = Ok (repeat 7 300 ++ zeros 212) /\ zlen (owned sm' FREE) = 546 /\
     exists s, WriteFile 5 (repeat 8 3) false (d', sm') = (s, Err EFileExists)) /\
  (forall c, zlen c = 548 * 256 + 1 -> exists s, WriteFile 5 c true (ex_blank, ex_map) = (s, Err EOutOfSpace)).
Proof.
  destruct ex_free as [F1 F2]. pose proof ex_floppy as Hf. assert (legal 5) as H5 by (unfold legal; lia).
  split; [exact Hf|]. split; [exact H5|]. split.
  - destruct (WriteFile_ok 5 (repeat 7 300) false ex_blank ex_map (fl_len _ _ Hf) (fl_ver _ _ Hf) H5) as (d' & sm' & E & Fl & C & O1 & O2 & _).
    { discriminate. }
    { rewrite F1, (F2 5 H5). vm_compute. discriminate. }
    { rewrite (F2 5 H5). intros H. contradiction (H eq_refl). }
    rewrite (F2 5 H5) in E. exists d', sm'. split; [exact E|]. split; [rewrite ReadFile_spec by apply (fl_len _ _ Fl); rewrite C; reflexivity|].
    split; [rewrite O2, F1, (F2 5 H5); reflexivity|]. exists (d', sm'). apply WriteFile_exists.
    + apply (v_len _ (fl_ver _ _ Fl)).
    + rewrite O1. pose proof (zlen_nonneg (owned sm' FREE)). assert (nsec (repeat 8 3) = 1) as -> by reflexivity.
      assert (nsec (repeat 7 300) = 2) as -> by reflexivity. lia.
    + intros Hx. rewrite Hx in O1. discriminate O1.
  - intros c Hc. exists (ex_blank, ex_map). apply WriteFile_space; [reflexivity|]. rewrite F1, (F2 5 H5). unfold nsec. rewrite Hc. vm_compute. reflexivity.
Qed.
Lemma C30_example_lemma : verified ex_map /\ verified (zset ex_map 20 5) /\ owned (zset ex_map 20 5) 5 = [20].
Proof.
  assert (zlen ex_map = 560) as H1 by reflexivity. assert (zlen (zset ex_map 20 5) = 560) as H2 by reflexivity.
  split; [apply (proj1 (Verify_spec _ H1)); vm_compute; reflexivity|].
  split; [apply (proj1 (Verify_spec _ H2)); vm_compute; reflexivity | vm_compute; reflexivity].
Qed.
Lemma C31_refuted_lemma :
  (forall o i f ow, reached o -> numeric (d_name (fi_desc_ i)) f -> fi_data i = [] ->
     d_type (fi_desc_ i) = FiletypeBinary -> d_length (fi_desc_ i) = 0 ->
     owned (op_SM o) FREE <> [] -> owned (op_SM o) f = [] -> exists o', PutFile i ow o = (o', Panic)) /\
  exists o i o', reached o /\ PutFile i false o = (o', Panic).
Proof.
  split.
  - intros o i f ow Ho. apply put_empty_panics. apply reached_ok. exact Ho.
  - destruct ex_opened as (d & o & Hd & Eo & _ & F1 & F2 & _).
    assert (reached o) as Hr by (eapply reached_open; eassumption).
    destruct (put_empty_panics o (FI (Desc (printed 7) [] 0 0 0 false FiletypeBinary) [] 0) 7 false (reached_ok o Hr)) as [o' E]; try reflexivity.
    + apply printed_numeric. unfold legal. lia.
    + intros H. rewrite H in F1. discriminate F1.
    + apply F2; unfold legal; lia.
    + exists o. eexists. exists o'. split; [exact Hr | exact E].
Qed.

(** ** Names *)
Lemma is_alnum_spec c : is_alnum c = true <-> alnum c.
Proof. unfold is_alnum, alnum, letter, digit. lia. Qed.
Lemma C33_lemma : forall n, Forall alnum n ->
  (valid_name n -> exists six, encodeSymbol n = Ok six /\ zlen six = 6 /\
     decodeSymbol (sub six 0 5) (znth 0 six 5) = upcase n) /\
  (~ valid_name n -> exists e, encodeSymbol n = Err e).
Proof.
  intros n Ha. split.
  - intros Hv. destruct (encode_valid n Hv) as (six & E & L & _ & D). exists six. auto.
  - intros Hv. apply encode_invalid; assumption.
Qed.
Lemma C33_example_lemma : valid_name (s2b "Hello5") /\ valid_name (s2b "abcdefghi") /\ ~ valid_name (s2b "123456789").
Proof.
  split; [apply valid_check; reflexivity|]. split; [apply valid_check; reflexivity|].
  intros [H|(_ & _ & H)]; [discriminate H | vm_compute in H; apply H; reflexivity].
Qed.
Lemma C34_refuted_lemma :
  exists n six, encodeSymbol n = Ok six /\ decodeSymbol (sub six 0 5) (znth 0 six 5) <> upcase n.
Proof. exists (s2b "A.BC"). eexists. split; [vm_compute; reflexivity | vm_compute; discriminate]. Qed.
Lemma upcase_filter n : is_ascii n -> kept (upcase n) = upcase (filter is_alnum n).
Proof.
  intros H. induction H as [|c n Hc Hn IH]; [reflexivity|]. unfold upcase, kept in *. cbn [map filter].
  set (u := if (97 <=? c) && (c <=? 122) then c - 32 else c).
  assert (negb (enc_w u =? 0) = is_alnum c) as ->.
  { unfold u, enc_w, is_alnum. destruct ((97 <=? c) && (c <=? 122)) eqn:E1; 
    destruct ((65 <=? (if (97 <=? c) && (c <=? 122) then c - 32 else c)) && ((if (97 <=? c) && (c <=? 122) then c - 32 else c) <=? 90)) eqn:E2;
    rewrite ?E1 in E2.
    - rewrite E2. cbn [Z.eqb negb]. lia.
    - lia.
    - rewrite E2. cbn [Z.eqb negb]. lia.
    - rewrite E2. destruct ((48 <=? c) && (c <=? 57)) eqn:E3; cbn [Z.eqb negb]; lia. }
  destruct (is_alnum c); cbn [map]; rewrite IH; reflexivity.
Qed.
Lemma C34_partial_lemma : forall n six, encodeSymbol n = Ok six ->
  (decodeSymbol (sub six 0 5) (znth 0 six 5) = upcase n <-> Forall alnum n) /\
  (is_ascii n -> decodeSymbol (sub six 0 5) (znth 0 six 5) = upcase (filter is_alnum n)).
Proof.
  intros n six E. split.
  - split.
    + intros H. pose proof (decodeSymbol_alnum (sub six 0 5) (znth 0 six 5)) as D. rewrite H in D. clear -D.
      apply Forall_forall. intros c Hc. rewrite Forall_forall in D.
      specialize (D _ (in_map _ _ _ Hc)). unfold alnum, letter, digit in *.
      destruct ((97 <=? c) && (c <=? 122)) eqn:B; lia.
    + intros H. destruct (decode_encode n six E) as (_ & _ & D). pose proof (alnum_ascii n H) as Ha.
      rewrite (to_upper_ascii n Ha) in D. destruct (alnum_bits n H) as [_ Ek]. rewrite Ek in D. exact D.
  - intros Ha. destruct (decode_encode n six E) as (_ & _ & D). rewrite (to_upper_ascii n Ha), (upcase_filter n Ha) in D. exact D.
Qed.
Lemma upcase_bits n : enc_bits (upcase n) = name_bits (filter is_alnum n).
Proof.
  induction n as [|c n IH]; [reflexivity|]. unfold upcase in *. cbn [map enc_bits filter]. rewrite IH.
  destruct (is_alnum c) eqn:E.
  - cbn [name_bits]. f_equal. revert E. unfold is_alnum, enc_w, char_bits.
    destruct ((97 <=? c) && (c <=? 122)) eqn:B.
    + replace ((65 <=? c - 32) && (c - 32 <=? 90)) with true by lia. replace ((48 <=? c) && (c <=? 57)) with false by lia. reflexivity.
    + destruct ((65 <=? c) && (c <=? 90)) eqn:B2; [replace ((48 <=? c) && (c <=? 57)) with false by lia; reflexivity|].
      destruct ((48 <=? c) && (c <=? 57)); [reflexivity|discriminate].
  - revert E. unfold is_alnum, enc_w. destruct ((97 <=? c) && (c <=? 122)) eqn:B.
    + rewrite orb_true_r. discriminate.
    + destruct ((65 <=? c) && (c <=? 90)); [discriminate|]. destruct ((48 <=? c) && (c <=? 57)); [discriminate|]. reflexivity.
Qed.
Lemma C34_accepted_lemma : forall n, is_ascii n ->
  ((exists six, encodeSymbol n = Ok six) <->
     n = [] \/ (3 <= zlen n <= 9 /\ name_bits (filter is_alnum n) <= 48)).
Proof.
  intros n Ha. pose proof (to_upper_ascii n Ha) as Eu. pose proof (upcase_bits n) as Eb.
  destruct (encodeSymbol_cases n) as [(-> & E)|[(Hl & Hb & E)|(Hn & Hx & e & E)]]; rewrite E.
  - split; [left; reflexivity|intros _; eexists; reflexivity].
  - rewrite Eu, Eb in Hb. split; [intros _; right; split; assumption|intros _; eexists; reflexivity].
  - rewrite Eu, Eb in Hx. split; [intros [six H]; discriminate|]. intros [->|H]; exfalso; [apply Hn; reflexivity|apply Hx; exact H].
Qed.

(** ** Tables *)
Lemma C35_lemma : forall t (d sm : bytes), floppy d sm -> table_ok t ->
  zlen (owned sm 3) = 16 -> zlen (owned sm 4) = 16 ->
  exists d' sm', WriteSymbolTable t (d, sm) = ((d', sm'), Ok tt) /\ floppy d' sm' /\
    ReadSymbolTable sm' d' = Ok (map canon t) /\
    (forall g, g <> 3 -> g <> 4 -> legal g -> owned sm' g = owned sm g /\ ReadFile sm' d' g = ReadFile sm d g) /\
    zlen (owned sm' 3) = 16 /\ zlen (owned sm' 4) = 16 /\ zlen (owned sm' FREE) = zlen (owned sm FREE).
Proof.
  intros t d sm Hf Ht H3 H4. pose proof (zlen_nonneg (owned sm FREE)).
  destruct (WriteSymbolTable_ok t d sm Hf Ht ltac:(lia) ltac:(lia)) as (d' & sm' & E & Fl & R & O & K3 & K4 & K5).
  exists d', sm'. split; [exact E|]. split; [exact Fl|]. split; [exact R|]. split; [|split; [exact K3|]; split; [exact K4 | lia]].
  intros g N3 N4 Hg. destruct (O g N3 N4 Hg) as [O1 O2]. split; [exact O1|].
  rewrite !ReadFile_spec by (first [apply (fl_len _ _ Hf) | apply (fl_len _ _ Fl)]). f_equal. exact O2.
Qed.
Lemma C35_example_lemma : table_ok ex_table /\
  exists d sm, floppy d sm /\ zlen (owned sm 3) = 16 /\ zlen (owned sm 4) = 16.
Proof.
  split; [apply ex_table_ok|]. destruct ex_opened as (d & o & Hd & E & _ & _ & _ & H3 & H4).
  destruct (NewOperator_ok d o Hd E) as (Hok & _). exists (op_data o), (op_SM o). split; [apply (ok_fl _ Hok) | auto].
Qed.
Lemma C36_lemma : forall t n a, map_table t -> n <> [] ->
  exists t' r, AddSymbol t n a = (t', r) /\ map_table t' /\ zlen t' = zlen t /\
   ((r = Ok tt /\ a <> 0 /\ (ByName t n <> 0 \/ unused t <> 0) /\ ByName t' n = a /\
     (forall m, m <> [] -> equal_fold m n = false -> ByName t' m = ByName t m)) \/
    (t' = t /\ (exists e, r = Err e) /\ (a = 0 \/ (ByName t n = 0 /\ unused t = 0)))).
Proof.
  intros t n a Ht Hn. destruct (AddSymbol_map t n a Ht Hn) as (t' & r & E & M & L & [(H1 & H2 & H3 & H4 & H5 & _)|H]);
    exists t', r; (split; [exact E|]; split; [exact M|]; split; [exact L|]); [left; auto | right; exact H].
Qed.
Lemma C37_lemma : forall t n, map_table t -> n <> [] ->
  exists t', DeleteSymbol t n = (t', negb (ByName t n =? 0)) /\ map_table t' /\ zlen t' = zlen t /\
    ByName t' n = 0 /\ (forall m, m <> [] -> equal_fold m n = false -> ByName t' m = ByName t m).
Proof.
  intros t n Ht Hn. destruct (DeleteSymbol_map t n Ht Hn) as (t' & E & M & L & B & O & _). exists t'. auto.
Qed.
Lemma C36_C37_lemma : forall ops t m, Forall (fun op => op_name op <> []) ops ->
  map_table t -> (forall n, n <> [] -> am_addr m n = ByName t n) -> am_free m = unused t ->
  snd (sym_run ops t) = snd (am_run ops m) /\
  (forall n, n <> [] -> ByName (fst (sym_run ops t)) n = am_addr (fst (am_run ops m)) n) /\
  unused (fst (sym_run ops t)) = am_free (fst (am_run ops m)).
Proof.
  intros ops t m Hops Ht Hm Hf. destruct (sym_run_refines ops t m Hops) as (H1 & (_ & H2 & H3) & _).
  { split; [exact Ht|]. split; [exact Hm | exact Hf]. }
  split; [exact H1|]. split; [intros n Hn; symmetry; apply H2; exact Hn | symmetry; exact H3].
Qed.
Lemma C36_example_lemma : map_table ex_table /\ unused ex_table = 816 /\
  ByName (fst (AddSymbol ex_table (s2b "fhello") 0xDF09)) (s2b "FHELLO") = 0xDF09 /\
  ByName (fst (DeleteSymbol ex_table (s2b "fhello"))) (s2b "FHELLO") = 0.
Proof. split; [apply ex_table_ok|]. repeat split; vm_compute; reflexivity. Qed.
Lemma C38_refuted_lemma :
  (exists t n, table_ok t /\ map_table t /\ live_links t /\ map canon t = t /\
     snd (DeleteSymbol t n) = true /\
     forall (d sm : bytes), floppy d sm -> zlen (owned sm 3) = 16 -> zlen (owned sm 4) = 16 ->
       exists d' sm' e, WriteSymbolTable (fst (DeleteSymbol t n)) (d, sm) = ((d', sm'), Ok tt) /\
         ReadSymbolTable sm' d' = Err e) /\
  (exists ops, forall (d sm : bytes), floppy d sm -> zlen (owned sm 3) = 16 -> zlen (owned sm 4) = 16 ->
       exists d' sm' e, WriteSymbolTable (fst (sym_run ops (repeat sym0 819))) (d, sm) = ((d', sm'), Ok tt) /\
         ReadSymbolTable sm' d' = Err e).
Proof.
  split.
  - exists bad_chain, (s2b "BBB"). destruct bad_chain_ok as (H1 & H2 & H3). split; [exact H1|]. split; [exact H2|]. split; [exact H3|].
    split; [vm_compute; reflexivity|]. split; [vm_compute; reflexivity|].
    intros d sm Hf K3 K4. pose proof (zlen_nonneg (owned sm FREE)).
    apply unreadable_on_disk; [exact bad_chain_unreadable | exact Hf | lia | lia].
  - exists bad_history. intros d sm Hf K3 K4. pose proof (zlen_nonneg (owned sm FREE)).
    apply unreadable_on_disk; [exact (proj1 bad_history_unreadable) | exact Hf | lia | lia].
Qed.
Lemma C38_add_lemma : forall t n a t', table_ok t -> map_table t -> live_links t ->
  n <> [] -> valid_name n -> is_u16 a -> ByName t n = 0 -> AddSymbol t n a = (t', Ok tt) ->
  table_ok t' /\ map_table t' /\ live_links t' /\
  forall (d sm : bytes), floppy d sm -> zlen (owned sm 3) = 16 -> zlen (owned sm 4) = 16 ->
    exists d' sm', WriteSymbolTable t' (d, sm) = ((d', sm'), Ok tt) /\ ReadSymbolTable sm' d' = Ok (map canon t').
Proof.
  intros t n a t' H1 H2 H3 H4 H5 H6 H7 E. destruct (add_readable t n a t' H1 H2 H3 H4 H5 H6 H7 E) as (K1 & K2 & K3).
  split; [exact K1|]. split; [exact K2|]. split; [exact K3|]. intros d sm Hf O3 O4. pose proof (zlen_nonneg (owned sm FREE)).
  apply readable_on_disk; auto; lia.
Qed.
Lemma C38_delete_lemma : forall t n i, table_ok t -> map_table t -> chained t -> n <> [] ->
  0 < i < 819 -> equal_fold n (nm t i) = true ->
  table_ok (fst (DeleteSymbol t n)) /\ live_links (fst (DeleteSymbol t n)) /\
  forall (d sm : bytes), floppy d sm -> zlen (owned sm 3) = 16 -> zlen (owned sm 4) = 16 ->
    exists d' sm', WriteSymbolTable (fst (DeleteSymbol t n)) (d, sm) = ((d', sm'), Ok tt) /\
      ReadSymbolTable sm' d' = Ok (map canon (fst (DeleteSymbol t n))).
Proof.
  intros t n i H1 H2 H3 H4 H5 H6. destruct (delete_readable t n i H1 H2 H3 H4 H5 H6) as [K1 K2].
  split; [exact K1|]. split; [exact K2|]. intros d sm Hf O3 O4. pose proof (zlen_nonneg (owned sm FREE)).
  apply readable_on_disk; auto; lia.
Qed.
Lemma C38_example_lemma : table_ok ex_table /\ map_table ex_table /\ chained ex_table /\
  equal_fold (s2b "fsymtbl2") (nm ex_table 2) = true.
Proof.
  destruct ex_table_ok as (H1 & H2 & H3 & _). split; [exact H1|]. split; [exact H2|]. split; [|vm_compute; reflexivity].
  split; [exact H3|]. unfold ex_table. split; [|split].
  - intros j Hj. rewrite three_len in Hj. unfold ad, lk. rewrite three_nth by lia.
    destruct (Z.eqb_spec j 0); [cbn; lia|]. destruct (Z.eqb_spec j 1); [cbn; lia|]. destruct (Z.eqb_spec j 2); cbn; lia.
  - intros j k Hj Hk. rewrite three_len in Hj, Hk. unfold ad, lk. rewrite !three_nth by lia.
    destruct (Z.eqb_spec j 0); [cbn; lia|]. destruct (Z.eqb_spec j 1); [cbn; lia|]. destruct (Z.eqb_spec j 2); cbn; lia.
  - intros j k Hj Hk. rewrite three_len in Hj, Hk. unfold ad, lk. rewrite !three_nth by lia.
    destruct (Z.eqb_spec j 0); [cbn; lia|]. destruct (Z.eqb_spec j 1); [cbn; lia|]. destruct (Z.eqb_spec j 2); cbn; lia.
Qed.

(** ** Names of files *)
Lemma C39_lemma : forall t s,
  (forall f, numeric s f -> FileForName t s = Ok f) /\
  (forall f, (forall g, ~ numeric s g) -> (FileForName t s = Ok f <-> symbol_file t s f)) /\
  ((forall f, ~ numeric s f /\ ~ symbol_file t s f) -> FileForName t s = Err EFileNotFound) /\
  (forall f, legal f -> symbol_for t f = None -> FileForName t (shown t f) = Ok f).
Proof.
  intros t s. split; [|split; [|split]].
  - intros f Hf. apply FileForName_resolves. left; exact Hf.
  - intros f Hn. rewrite FileForName_resolves. split.
    + intros [H|[_ H]]; [exfalso; exact (Hn f H) | exact H].
    + intros H. right. auto.
  - intros H. destruct (FileForName_spec t s) as [(f & _ & [Hr|[_ Hr]] & _)|[E _]]; [| |exact E]; exfalso; destruct (H f); contradiction.
  - intros f Hf. apply (shown_resolves t f Hf).
Qed.
Lemma C39_shown_lemma : forall t f n, legal f -> symbol_for t f = Some n -> n <> [] ->
  (forall g, ~ numeric n g) -> names_unique t -> FileForName t n = Ok f.
Proof.
  intros t f n Hf E Hn Hnn Hu. destruct (shown_resolves t f Hf) as [_ H]. specialize (H n E Hn Hnn Hu).
  unfold shown in H. rewrite E in H. exact H.
Qed.
Lemma C39_example_lemma : numeric (s2b "DF1a") 26 /\ FileForName ex_table (s2b "1A") = Ok 26 /\
  symbol_file ex_table (s2b "Fhello") 5 /\ FileForName ex_table (s2b "FE") = Err EFileNotFound /\
  symbol_for ex_table 5 = Some (s2b "FHELLO") /\ shown ex_table 26 = s2b "DF1A".
Proof.
  split; [|split; [vm_compute; reflexivity|]; split; [|repeat split; vm_compute; reflexivity]].
  - split; [unfold legal; lia|]. exists 0xDF1A. split; [|right; reflexivity]. apply hex_number_iff. split; [discriminate | reflexivity].
  - split; [unfold legal; lia|]. exists 0. split; [|reflexivity]. split; [vm_compute; split; [discriminate | reflexivity]|].
    split; [reflexivity | intros j Hj; lia].
Qed.
Lemma C40_lemma : forall t p q, no_colon p -> no_colon q ->
  (forall f, numeric p f -> FilesForCompoundName t p = Ok (f, 0, [])) /\
  (forall f, (forall g, ~ numeric p g) -> symbol_file t p f -> FilesForCompoundName t p = Ok (f, f, p)) /\
  ((forall f, ~ resolves t p f) -> FilesForCompoundName t p = Ok (0, 0, p)) /\
  (forall f, numeric p f -> (forall g, ~ numeric q g) ->
     (forall g, symbol_file t q g -> FilesForCompoundName t (p ++ 58 :: q) = Ok (f, g, q)) /\
     ((forall g, ~ symbol_file t q g) -> FilesForCompoundName t (p ++ 58 :: q) = Ok (f, 0, q))) /\
  ((forall f, ~ numeric p f) \/ (exists g, numeric q g) -> exists e, FilesForCompoundName t (p ++ 58 :: q) = Err e) /\
  (forall x y z, exists e, FilesForCompoundName t (x ++ 58 :: y ++ 58 :: z) = Err e).
Proof.
  intros t p q Hp Hq. destruct (FilesForCompoundName_simple t p Hp) as (H1 & H2 & H3).
  destruct (FilesForCompoundName_compound t p q Hp Hq) as [H4 H5].
  split; [exact H1|]. split; [exact H2|]. split; [exact H3|]. split; [exact H4|]. split; [exact H5 | apply FilesForCompoundName_many].
Qed.

(** ** The operator *)
Lemma C41_lemma : forall d o h, zlen d = 143360 -> NewOperator d = Ok o ->
  no_numeric_symbols (st_of o) ->
  Forall (fun rf => about (fst rf) (snd rf) /\ legal (snd rf)) h ->
  snd (op_run (map fst h) o) = snd (st_run (st_of o) h (store_of d (stored_map d))) /\
  same_store (store_of (op_data (fst (op_run (map fst h) o))) (op_SM (fst (op_run (map fst h) o))))
             (fst (st_run (st_of o) h (store_of d (stored_map d)))).
Proof.
  intros d o h Hd E Hnn Hh. destruct (NewOperator_ok d o Hd E) as (Hok & H1 & H2 & _).
  destruct (op_run_refines h o (store_of d (stored_map d)) Hok Hnn Hh) as (K1 & _ & _ & K2).
  - rewrite H1, H2. split; [auto | reflexivity].
  - auto.
Qed.
Lemma ex_names (P : bytes -> Prop) : P [] -> P (s2b "FHELLO") -> P (s2b "FSYMTBL1") -> P (s2b "FSYMTBL2") ->
  forall i, 0 <= i -> P (nm ex_table i).
Proof.
  intros H0 H1 H2 H3 i Hi. unfold nm, ex_table. rewrite three_nth by lia.
  destruct (i =? 0); [exact H1|]. destruct (i =? 1); [exact H2|]. destruct (i =? 2); [exact H3 | exact H0].
Qed.
Lemma not_numeric s : parseAddressFilename s = 0 -> forall g, ~ numeric s g.
Proof.
  intros H g Hg. pose proof (parseAddress_numeric s g Hg) as E. destruct Hg as [Hl _]. unfold legal in Hl. lia.
Qed.
Lemma ex_no_numeric : no_numeric_symbols ex_table.
Proof.
  intros i f Hi. revert f. apply (ex_names (fun n => forall f, ~ numeric n f)); try lia; apply not_numeric; vm_compute; reflexivity.
Qed.
Definition ex_requests : list (request * Z) :=
  [(RPut (FI (Desc (s2b "DF05") [] 0 0 3 false FiletypeBinary) [1;2;3] 0) false, 5);
   (RGet (s2b "5"), 5); (RDelete (s2b "df05"), 5); (RCatalog, 1)].
Lemma C41_example_lemma : exists d o, zlen d = 143360 /\ NewOperator d = Ok o /\ no_numeric_symbols (st_of o) /\
  Forall (fun rf => about (fst rf) (snd rf) /\ legal (snd rf)) ex_requests.
Proof.
  destruct ex_opened as (d & o & Hd & E & T & _). exists d, o. split; [exact Hd|]. split; [exact E|].
  split; [unfold st_of; rewrite T; exact ex_no_numeric|].
  assert (legal 5) as H5 by (unfold legal; lia).
  assert (forall s v, hex_number s v -> v = 5 \/ v = 0xDF05 -> numeric s 5) as Hnum.
  { intros s v Hv Hc. split; [exact H5|]. exists v. auto. }
  unfold ex_requests. repeat constructor; cbn [fst snd]; try (unfold legal; lia); try discriminate.
  - exists 0xDF05. split; [apply hex_number_iff; split; [discriminate | reflexivity] | right; reflexivity].
  - exists 5. split; [apply hex_number_iff; split; [discriminate | reflexivity] | left; reflexivity].
  - exists 0xDF05. split; [apply hex_number_iff; split; [discriminate | reflexivity] | right; reflexivity].
Qed.
Lemma C42_lemma : forall o, reached o ->
  exists o2, NewOperator (op_data o) = Ok o2 /\ op_data o2 = op_data o /\ op_SM o2 = op_SM o /\
    forall f, ReadFile (op_SM o2) (op_data o2) f = ReadFile (op_SM o) (op_data o) f.
Proof.
  intros o Hr. destruct (reopen o (reached_ok o Hr)) as (o2 & H1 & H2 & H3 & H4 & _). exists o2. auto.
Qed.
Lemma C42_example_lemma : exists o, reached o /\ op_ST o = Some ex_table.
Proof.
  destruct ex_opened as (d & o & Hd & E & T & _). exists o. split; [eapply reached_open; eassumption | exact T].
Qed.
Lemma sorted_filter (p : Z -> bool) l : Sorted.StronglySorted Z.lt l -> Sorted.StronglySorted Z.lt (filter p l).
Proof.
  induction 1 as [|x l Hl IH Hx]; [constructor|]. cbn [filter]. destruct (p x); [|exact IH]. constructor; [exact IH|].
  rewrite Forall_forall in *. intros y Hy. apply filter_In in Hy as [Hy _]. apply Hx; exact Hy.
Qed.
Lemma sorted_files : Sorted.StronglySorted Z.lt (map (fun k => k + 1) (zrange 253)).
Proof.
  rewrite zrange_seq. generalize (Z.to_nat 253) as n. generalize 0%nat as a. intros a n. revert a.
  induction n as [|n IH]; intros a; cbn [seq map]; [constructor|]. constructor; [apply IH|].
  apply Forall_forall. intros y Hy. rewrite map_map in Hy. apply in_map_iff in Hy as (k & <- & Hk). apply in_seq in Hk. lia.
Qed.
Lemma C43_lemma : forall o, reached o -> exists fs,
  Catalog o = Ok (map (fun f => Desc (shown (st_of o) f) (shown_full (st_of o) f)
      (zlen (owned (op_SM o) f)) 0 (256 * zlen (owned (op_SM o) f)) false FiletypeBinary) fs) /\
  (forall f, In f fs <-> 1 <= f <= 0xFD /\ exists k, 0 <= k < 560 /\ znth 0 (op_SM o) k = f) /\
  Sorted.StronglySorted Z.lt fs.
Proof.
  intros o _. eexists. split; [apply Catalog_spec|]. split.
  - intros f. rewrite filter_In, in_map_iff. rewrite <- (owned_ex (op_SM o) f). split.
    + intros [(k & <- & Hk) Ho]. apply In_zrange in Hk. split; [lia|]. intros E. rewrite E in Ho. discriminate Ho.
    + intros [Hf Ho]. split; [exists (f - 1); split; [lia | apply In_zrange; lia]|].
      destruct (Z.eqb_spec (zlen (owned (op_SM o) f)) 0) as [E|E]; [apply zlen_zero_nil in E; contradiction | reflexivity].
  - apply sorted_filter, sorted_files.
Qed.
Lemma filter_two (p : Z -> bool) l a b : Sorted.StronglySorted Z.lt l -> In a l -> In b l -> a < b ->
  (forall x, In x l -> p x = true <-> x = a \/ x = b) -> filter p l = [a; b].
Proof.
  intros Hs. revert a b. induction Hs as [|x l Hl IH Hx]; intros a b Ha Hb Hab Hp; [destruct Ha|].
  rewrite Forall_forall in Hx. cbn [filter]. destruct (p x) eqn:B.
  - apply Hp in B; [|left; reflexivity]. destruct B as [->| ->].
    + f_equal. destruct Hb as [->|Hb]; [lia|]. clear IH Ha.
      assert (forall y, In y l -> p y = true <-> y = b) as Hq.
      { intros y Hy. pose proof (Hx y Hy). rewrite Hp by (right; exact Hy). lia. }
      clear Hp. revert Hq Hb Hx Hab. induction Hl as [|y l Hl IH Hy]; intros Hq Hb Hx Hab; [destruct Hb|]. cbn [filter].
      rewrite Forall_forall in Hy. destruct (p y) eqn:B.
      * apply Hq in B; [|left; reflexivity]. subst y. f_equal.
        assert (forall z, In z l -> p z = false) as Hf.
        { intros z Hz. destruct (p z) eqn:Bz; [|reflexivity]. apply Hq in Bz; [|right; exact Hz]. specialize (Hy z Hz). lia. }
        clear -Hf. induction l as [|z l IH]; [reflexivity|]. cbn [filter]. rewrite (Hf z (or_introl eq_refl)). apply IH. intros w Hw. apply Hf. right; exact Hw.
      * apply IH; [intros z Hz; apply Hq; right; exact Hz| |intros z Hz; apply Hx; right; exact Hz | exact Hab].
        destruct Hb as [->|Hb]; [|exact Hb]. rewrite (proj2 (Hq b (or_introl eq_refl)) eq_refl) in B. discriminate.
    + destruct Ha as [->|Ha]; [lia|]. specialize (Hx a Ha). lia.
  - assert (x <> a /\ x <> b) as [Na Nb].
    { split; intros ->; [assert (p a = true) by (apply Hp; [left; reflexivity | auto])|assert (p b = true) by (apply Hp; [left; reflexivity | auto])]; congruence. }
    apply IH; [destruct Ha; [congruence | assumption] | destruct Hb; [congruence | assumption] | exact Hab|].
    intros y Hy. apply Hp. right; exact Hy.
Qed.
Lemma C43_example_lemma : exists o, reached o /\
  Catalog o = Ok [Desc (s2b "FSYMTBL1") (s2b "DF03:FSYMTBL1") 16 0 4096 false FiletypeBinary;
                  Desc (s2b "FSYMTBL2") (s2b "DF04:FSYMTBL2") 16 0 4096 false FiletypeBinary].
Proof.
  destruct ex_opened as (d & o & Hd & E & T & F1 & F2 & H3 & H4). exists o. split; [eapply reached_open; eassumption|].
  rewrite Catalog_spec. unfold st_of. rewrite T.
  rewrite (filter_two _ _ 3 4 sorted_files).
  - cbn [map]. rewrite H3, H4. vm_compute. reflexivity.
  - apply in_map_iff. exists 2. split; [reflexivity | apply In_zrange; lia].
  - apply in_map_iff. exists 3. split; [reflexivity | apply In_zrange; lia].
  - lia.
  - intros x Hx. apply in_map_iff in Hx as (k & <- & Hk). apply In_zrange in Hk. split.
    + intros H. destruct (Z.eq_dec (k + 1) 3); [auto|]. destruct (Z.eq_dec (k + 1) 4); [auto|].
      rewrite F2 in H by (unfold legal; lia). discriminate H.
    + intros [->| ->]; [rewrite H3 | rewrite H4]; reflexivity.
Qed.

Lemma C44_lemma : forall d o t i ow o' ex, zlen d = 143360 -> NewOperator d = Ok o ->
  op_ST o = Some t ->
  fi_data i <> [] -> d_name (fi_desc_ i) <> [] -> no_colon (d_name (fi_desc_ i)) ->
  (forall g, ~ numeric (d_name (fi_desc_ i)) g) ->
  PutFile i ow o = (o', Ok ex) ->
  (exists i', GetFile o' (d_name (fi_desc_ i)) = Ok i' /\ fi_data i' = padded (fi_data i)) /\
  exists f, resolves (st_of o') (d_name (fi_desc_ i)) f /\
    forall g, legal g -> g <> f -> g <> 3 -> g <> 4 -> ReadFile (op_SM o') (op_data o') g = ReadFile (op_SM o) d g.
Proof.
  intros d o t i ow o' ex Hd E T Hne Hn0 Hnc Hnn HP. destruct (NewOperator_ok d o Hd E) as (Hok & H1 & H2 & H3).
  assert (ReadSymbolTable (op_SM o) (op_data o) = Ok t) as HR.
  { rewrite H1, H2. rewrite T in H3. unfold opened_table in H3. destruct (ReadSymbolTable (stored_map d) d); congruence. }
  pose proof (PutFile_inv _ _ _ _ _ Hok Hne HP) as [Hok' _].
  destruct (Put_then_get i ow o o' ex _ t Hok T HR Hne eq_refl Hn0 Hnc Hnn HP) as (f & Hf & Hr & HC & Hoth & _).
  split.
  - destruct (GetFile_content o' _ f Hok' Hr) as (i2 & E2 & D2); [rewrite HC; apply padded_nonempty; exact Hne|].
    exists i2. split; [exact E2 | congruence].
  - exists f. split; [exact Hr|]. intros g Hg N1 N3 N4.
    rewrite !ReadFile_spec by (first [exact Hd | apply (fl_len _ _ (ok_fl _ Hok'))]). f_equal. rewrite (Hoth g Hg N1 N3 N4), H1. reflexivity.
Qed.
Lemma C44_reopen_lemma : forall d o t i ow o' ex, zlen d = 143360 -> bytes_ok d -> NewOperator d = Ok o ->
  op_ST o = Some t -> names_unique t -> live_links t ->
  fi_data i <> [] -> d_name (fi_desc_ i) <> [] -> valid_name (d_name (fi_desc_ i)) ->
  (forall g, ~ numeric (d_name (fi_desc_ i)) g) ->
  ~ symbol_file t (d_name (fi_desc_ i)) 3 -> ~ symbol_file t (d_name (fi_desc_ i)) 4 ->
  (ByName t (d_name (fi_desc_ i)) = 0 \/ exists g, symbol_file t (d_name (fi_desc_ i)) g) ->
  PutFile i ow o = (o', Ok ex) ->
  exists o2 i2, NewOperator (op_data o') = Ok o2 /\ GetFile o2 (d_name (fi_desc_ i)) = Ok i2 /\
    fi_data i2 = padded (fi_data i).
Proof.
  intros d o t i ow o' ex Hd Hb E T Hu Hlive Hne Hn0 Hv Hnn N3 N4 Hcase HP. destruct (NewOperator_ok d o Hd E) as (Hok & H1 & H2 & H3).
  assert (ReadSymbolTable (op_SM o) (op_data o) = Ok t) as HR.
  { rewrite H1, H2. rewrite T in H3. unfold opened_table in H3. destruct (ReadSymbolTable (stored_map d) d); congruence. }
  apply (Put_reopen_get i ow o o' ex (d_name (fi_desc_ i)) t); auto. congruence.
Qed.
Lemma C44_succeeds_lemma : forall d o t i ow, zlen d = 143360 -> NewOperator d = Ok o -> op_ST o = Some t ->
  map_table t -> (forall j, 0 <= j < zlen t -> valid_name (nm t j)) ->
  d_type (fi_desc_ i) = FiletypeBinary -> d_length (fi_desc_ i) = zlen (fi_data i) -> fi_data i <> [] ->
  d_name (fi_desc_ i) <> [] -> valid_name (d_name (fi_desc_ i)) -> (forall g, ~ numeric (d_name (fi_desc_ i)) g) ->
  ByName t (d_name (fi_desc_ i)) = 0 -> unused t <> 0 ->
  nsec (fi_data i) <= zlen (owned (op_SM o) FREE) -> (exists f, legal f /\ owned (op_SM o) f = []) ->
  exists o', PutFile i ow o = (o', Ok false).
Proof.
  intros d o t i ow Hd E T Hmap Hnames Ht Hl Hne Hn0 Hv Hnn Hb Hun Hfree (f & Hf & Hof). destruct (NewOperator_ok d o Hd E) as (Hok & H1 & H2 & H3).
  assert (ReadSymbolTable (op_SM o) (op_data o) = Ok t) as HR.
  { rewrite H1, H2. rewrite T in H3. unfold opened_table in H3. destruct (ReadSymbolTable (stored_map d) d); congruence. }
  apply (PutFile_new_ok i ow o (d_name (fi_desc_ i)) t); auto.
  intros H0. destruct (FirstFreeFile_spec (op_SM o)) as [(Hx & _)|[_ Hx]]; [unfold legal in Hx; lia|]. exact (Hx f Hf Hof).
Qed.
(** The example's disk consists of bytes. *)
Lemma fill_bytes syms : forall i b1 b2 c1 c2, Forall (fun s => is_u16 (s_addr s)) syms -> bytes_ok b1 -> bytes_ok b2 ->
  fill_tables syms i b1 b2 = Ok (c1, c2) -> bytes_ok c1 /\ bytes_ok c2.
Proof.
  induction syms as [|s syms IH]; intros i b1 b2 c1 c2 Hs B1 B2; cbn [fill_tables].
  - intros E; inversion E; subst. auto.
  - inversion Hs as [|? ? Hs1 Hs2]; subst. destruct (encodeSymbol (s_name s)) as [six|e|] eqn:Es; cbn [rbind]; [|discriminate|discriminate].
    destruct (decode_encode _ _ Es) as (_ & B6 & _).
    destruct (4096 <? i * 5 + 5); [discriminate|]. apply IH; [exact Hs2| |].
    + apply bytes_ok_upd; [exact B1|]. pose proof (bytes_ok_znth six 5 B6).
      repeat constructor; unfold is_u16, is_byte, u8 in *; try lia.
    + apply bytes_ok_upd; [exact B2 | apply bytes_ok_sub; exact B6].
Qed.
Lemma WriteFile_bytes f c ow (d sm : bytes) d' sm' ex : floppy d sm -> legal f -> c <> [] -> bytes_ok d -> bytes_ok c ->
  WriteFile f c ow (d, sm) = ((d', sm'), Ok ex) -> floppy d' sm' /\ bytes_ok d'.
Proof.
  intros Hfl Hf Hc Hd Hb E. pose proof Hfl as [L V M].
  destruct (WriteFile_cases f c ow d sm Hfl Hf Hc) as [(H & E')|[(H & Ho & How & E')|(H & How & _)]].
  1, 2: rewrite E in E'; inversion E'.
  destruct (WriteFile_ok f c ow d sm L V Hf Hc H How) as (d2 & sm2 & E2 & F2 & _ & _ & _ & _ & _ & _ & B).
  rewrite E in E2. inversion E2; subst. split; [exact F2|]. apply B; [exact Hd| |exact Hb]. apply bytes_ok_sub. exact Hd.
Qed.
Lemma WriteSymbolTable_bytes t (d sm : bytes) d' sm' : floppy d sm -> zlen t = 819 -> Forall (fun s => is_u16 (s_addr s)) t ->
  bytes_ok d -> WriteSymbolTable t (d, sm) = ((d', sm'), Ok tt) -> bytes_ok d'.
Proof.
  intros Hf HL Hs Hb E. unfold WriteSymbolTable in E.
  destruct (fill_tables_any t 0 (zeros 0x1000) (zeros 0x1000)) as [(e & Ef)|(b1 & b2 & Ef & L1 & L2)]; try reflexivity; try lia.
  { rewrite Ef in E. discriminate. }
  rewrite Ef in E. destruct (fill_bytes t 0 _ _ b1 b2 Hs (bytes_ok_zeros _) (bytes_ok_zeros _) Ef) as [B1 B2].
  unfold sbind in E.
  destruct (WriteFile 3 b1 true (d, sm)) as [[d1 sm1] r1] eqn:E1. destruct r1 as [x1|e|]; cbn [untag] in E; [|discriminate|discriminate].
  destruct (WriteFile_bytes 3 b1 true d sm d1 sm1 x1 Hf) as [F1 K1]; auto; [unfold legal; lia | intros ->; discriminate L1|].
  destruct (WriteFile 4 b2 true (d1, sm1)) as [[d2 sm2] r2] eqn:E2. destruct r2 as [x2|e|]; cbn [untag] in E; [|discriminate|discriminate].
  destruct (WriteFile_bytes 4 b2 true d1 sm1 d2 sm2 x2 F1) as [F2 K2]; auto; [unfold legal; lia | intros ->; discriminate L2|].
  unfold sret in E. inversion E; subst. exact K2.
Qed.
Lemma ex_blank_bytes : bytes_ok ex_blank.
Proof.
  unfold ex_blank. apply bytes_ok_upd; [apply bytes_ok_zeros|]. unfold ex_map. apply bytes_ok_app.
  split; apply Forall_forall; intros x Hx; apply repeat_spec in Hx; subst; unfold is_byte; lia.
Qed.
Lemma ex_opened_bytes : exists d o, bytes_ok d /\ zlen d = 143360 /\ NewOperator d = Ok o /\ op_ST o = Some ex_table /\
  zlen (owned (op_SM o) FREE) = 516 /\ owned (op_SM o) 1 = [].
Proof.
  destruct ex_free as [F1 F2]. destruct ex_table_ok as (T1 & T2 & T3 & T4).
  destruct (WriteSymbolTable_ok ex_table ex_blank ex_map ex_floppy T1) as (d & sm & E & Hf & HR & Hoth & H3 & H4 & H5).
  { rewrite F1, !F2, (@zlen_nil Z) by (unfold legal; lia). lia. }
  { rewrite F1, !F2, (@zlen_nil Z) by (unfold legal; lia). lia. }
  rewrite F1, !F2, (@zlen_nil Z) in H5 by (unfold legal; lia).
  exists d. eexists. split.
  { apply (WriteSymbolTable_bytes ex_table ex_blank ex_map d sm ex_floppy (proj1 T1)); [|exact ex_blank_bytes | exact E].
    destruct T1 as (_ & Hs & _). eapply Forall_impl; [|exact Hs]. intros s (H & _). exact H. }
  split; [apply (fl_len _ _ Hf)|]. split; [apply NewOperator_floppy; exact Hf|]. cbn [op_ST op_SM].
  split; [unfold opened_table; rewrite HR; f_equal; exact T4|]. split; [lia|].
  destruct (Hoth 1) as [-> _]; [lia | lia | unfold legal; lia|]. apply F2. unfold legal; lia.
Qed.
Lemma C44_example_lemma : exists d o o', zlen d = 143360 /\ bytes_ok d /\ NewOperator d = Ok o /\ op_ST o = Some ex_table /\
  names_unique ex_table /\ live_links ex_table /\ valid_name (s2b "NEWFILE") /\ (forall g, ~ numeric (s2b "NEWFILE") g) /\
  ByName ex_table (s2b "NEWFILE") = 0 /\
  PutFile (FI (Desc (s2b "NEWFILE") [] 0 0 300 false FiletypeBinary) (repeat 7 300) 0) false o = (o', Ok false).
Proof.
  destruct ex_opened_bytes as (d & o & Hb & Hd & E & T & F1 & F2). destruct ex_table_ok as (T1 & T2 & T3 & T4).
  assert (valid_name (s2b "NEWFILE")) as Hv by (apply valid_check; reflexivity).
  assert (forall g, ~ numeric (s2b "NEWFILE") g) as Hnn by (apply not_numeric; vm_compute; reflexivity).
  assert (ByName ex_table (s2b "NEWFILE") = 0) as HB by (vm_compute; reflexivity).
  destruct (C44_succeeds_lemma d o ex_table (FI (Desc (s2b "NEWFILE") [] 0 0 300 false FiletypeBinary) (repeat 7 300) 0) false Hd E T T2) as [o' EP];
    cbn [fi_desc_ fi_data d_name d_type d_length]; auto; try discriminate.
  - intros j Hj. apply ex_names; try lia; first [left; reflexivity | apply valid_check; reflexivity].
  - rewrite F1. unfold nsec. rewrite zlen_repeat by lia. vm_compute. discriminate.
  - exists 1. split; [unfold legal; lia | exact F2].
  - exists d, o, o'. split; [exact Hd|]. split; [exact Hb|]. split; [exact E|]. split; [exact T|]. split; [apply T2|].
    split; [exact T3|]. split; [exact Hv|]. split; [exact Hnn|]. split; [exact HB | exact EP].
Qed.

Lemma ex_symtbl1 : symbol_file ex_table (s2b "FSYMTBL1") 3.
Proof.
  split; [unfold legal; lia|]. exists 1. split; [|reflexivity]. split; [vm_compute; split; [discriminate | reflexivity]|].
  split; [reflexivity|]. intros j Hj. assert (j = 0) as -> by lia. reflexivity.
Qed.
Lemma C44_refuted_lemma : exists d o i o' o2, zlen d = 143360 /\ bytes_ok d /\ NewOperator d = Ok o /\ op_ST o = Some ex_table /\
  (forall g, ~ numeric (d_name (fi_desc_ i)) g) /\ valid_name (d_name (fi_desc_ i)) /\
  PutFile i true o = (o', Ok true) /\ NewOperator (op_data o') = Ok o2 /\
  GetFile o2 (d_name (fi_desc_ i)) = Err EFileNotFound.
Proof.
  destruct ex_opened_bytes as (d & o & Hb & Hd & E & T & F1 & F2).
  destruct (NewOperator_ok d o Hd E) as (Hok & H1 & H2 & H3).
  assert (ReadSymbolTable (op_SM o) (op_data o) = Ok ex_table) as HR.
  { rewrite H1, H2. rewrite T in H3. unfold opened_table in H3. destruct (ReadSymbolTable (stored_map d) d); congruence. }
  destruct (table_files _ _ _ (fl_len _ _ (ok_fl _ Hok)) HR) as [T3 T4].
  pose (n := s2b "FSYMTBL1").
  assert (forall g, ~ numeric n g) as Hnn by (apply not_numeric; vm_compute; reflexivity).
  assert (valid_name n) as Hv by (apply valid_check; reflexivity).
  destruct (WriteFile_ok 3 [7] true (op_data o) (op_SM o) (fl_len _ _ (ok_fl _ Hok)) (fl_ver _ _ (ok_fl _ Hok)))
    as (d1 & sm1 & E1 & Fl1 & C1 & _); [unfold legal; lia | discriminate | | reflexivity|].
  { rewrite F1, T3. vm_compute. discriminate. }
  exists d, o, (FI (Desc n [] 0 0 1 false FiletypeBinary) [7] 0), (Op d1 sm1 (Some ex_table)), (Op d1 sm1 None).
  cbn [fi_desc_ d_name op_data].
  split; [exact Hd|]. split; [exact Hb|]. split; [exact E|]. split; [exact T|]. split; [exact Hnn|]. split; [exact Hv|].
  split; [|split].
  - unfold PutFile. cbn [fi_desc_ fi_data d_type d_length d_name]. rewrite Z.eqb_refl. cbn [negb].
    change (1 =? zlen [7]) with true. cbn [negb]. unfold st_of at 1. rewrite T.
    destruct (FilesForCompoundName_simple ex_table n) as (_ & G2 & _); [apply valid_no_colon; destruct Hv as [Hx|(_ & Ha & _)]; [discriminate Hx | exact Ha]|].
    rewrite (G2 3 Hnn ex_symtbl1). change (beq n []) with false. cbv iota.
    destruct (encode_valid n Hv) as (six & Esix & _). rewrite Esix. cbn [rbind]. cbv zeta. change (3 =? 0) with false. cbv iota.
    unfold sbind. unfold on_disk. rewrite E1, T, T3. cbn [negb andb Z.eqb Pos.eqb]. reflexivity.
  - rewrite (NewOperator_floppy _ _ Fl1). unfold opened_table, ReadSymbolTable.
    rewrite ReadFile_spec by apply (fl_len _ _ Fl1). cbn [rbind]. rewrite C1. reflexivity.
  - unfold GetFile. change (st_of (Op d1 sm1 None)) with (@nil Symbol). vm_compute (FileForName [] n). reflexivity.
Qed.

(** ** Delete *)
Lemma C45_refuted_lemma :
  (forall o n o' ex f t, reached o -> op_ST o = Some t -> (forall g, ~ numeric n g) ->
     symbol_file t n f -> f = 3 \/ f = 4 -> Delete n o = (o', Ok ex) -> owned (op_SM o') f <> []) /\
  exists o o', reached o /\ symbol_file (st_of o) (s2b "FSYMTBL1") 3 /\
    Delete (s2b "FSYMTBL1") o = (o', Ok true) /\ zlen (owned (op_SM o') 3) = 16.
Proof.
  split.
  - intros o n o' ex f t Hr T Hnn (_ & k & (Hk & Ek & _) & _) Hf E.
    destruct (Delete_success n o o' ex (reached_ok o Hr) E) as (_ & _ & _ & _ & _ & _ & _ & H).
    destruct (H t T) as [H3 H4]; [exists k; split; [exact Hk | rewrite equal_fold_sym; exact Ek]|].
    intros H0. destruct Hf as [->| ->]; rewrite H0 in *; [discriminate H3 | discriminate H4].
  - destruct ex_opened as (d & o & Hd & E & T & F1 & F2 & H3 & H4).
    assert (reached o) as Hr by (eapply reached_open; eassumption). pose proof (reached_ok o Hr) as Hok.
    assert (st_of o = ex_table) as Es by (unfold st_of; rewrite T; reflexivity).
    pose proof ex_symtbl1 as Hsym.
    assert (FileForName ex_table (s2b "FSYMTBL1") = Ok 3) as EF.
    { apply FileForName_resolves. right. split; [|exact Hsym]. apply not_numeric. vm_compute. reflexivity. }
    set (t1 := fst (DeleteSymbol ex_table (s2b "FSYMTBL1"))).
    assert (DeleteSymbol ex_table (s2b "FSYMTBL1") = (t1, true)) as ED.
    { unfold t1. destruct (DeleteSymbol ex_table (s2b "FSYMTBL1")) as [a b] eqn:B. apply (f_equal snd) in B. cbn [snd fst] in *.
      f_equal. rewrite <- B. vm_compute. reflexivity. }
    assert (table_ok t1) as Ht1.
    { destruct C38_example_lemma as (A1 & A2 & A3 & _). apply (delete_readable ex_table (s2b "FSYMTBL1") 1 A1 A2 A3); [discriminate | lia | vm_compute; reflexivity]. }
    destruct (Delete_disk (op_data o) (op_SM o) 3 (ok_fl _ Hok) ltac:(unfold legal; lia)) as (EP & Fl & C & O & Oth & Fr).
    destruct (WriteSymbolTable_ok t1 _ _ Fl Ht1) as (d2 & sm2 & E2 & _ & _ & _ & O3 & _).
    { rewrite O, Fr, F1, H3, (@zlen_nil Z). lia. }
    { rewrite O, Fr, F1, H3. destruct (Oth 4) as [-> _]; [lia | unfold legal; lia|]. rewrite H4, (@zlen_nil Z). lia. }
    exists o. eexists. split; [exact Hr|]. rewrite Es. split; [exact Hsym|]. split.
    + unfold Delete. rewrite Es, EF. cbv zeta. rewrite EP, T, ED. unfold sbind, on_disk. cbn [op_data op_SM op_ST]. rewrite E2.
      unfold sret. rewrite SectorsForFile_owned, zlen_map, H3. reflexivity.
    + cbn [op_SM]. exact O3.
Qed.
Lemma C45_partial_lemma : forall o n o' ex, reached o -> Delete n o = (o', Ok ex) ->
  exists f, legal f /\ FileForName (st_of o) n = Ok f /\ (ex = true <-> owned (op_SM o) f <> []) /\
    (f <> 3 -> f <> 4 -> owned (op_SM o') f = []) /\
    (forall g, legal g -> g <> f -> g <> 3 -> g <> 4 ->
       ReadFile (op_SM o') (op_data o') g = ReadFile (op_SM o) (op_data o) g) /\
    (op_ST o = None ->
       owned (op_SM o') f = [] /\
       forall g, legal g -> g <> f -> ReadFile (op_SM o') (op_data o') g = ReadFile (op_SM o) (op_data o) g).
Proof.
  intros o n o' ex Hr E. pose proof (reached_ok o Hr) as Hok. pose proof (Delete_inv n o o' _ Hok E) as [Hok' _].
  destruct (Delete_success n o o' ex Hok E) as (f & Hf & Hres & Hex & Hoth & Hgone & Hnone & _).
  pose proof (fl_len _ _ (ok_fl _ Hok)) as L1. pose proof (fl_len _ _ (ok_fl _ Hok')) as L2.
  exists f. split; [exact Hf|]. split; [apply FileForName_resolves; exact Hres|]. split.
  { rewrite Hex, content_beq by exact L1. pose proof (zlen_nonneg (owned (op_SM o) f)). split.
    - intros H0 H1. rewrite H1 in H0. discriminate H0.
    - intros H0. destruct (Z.eqb_spec (zlen (owned (op_SM o) f)) 0) as [E0|E0]; [apply zlen_zero_nil in E0; contradiction | reflexivity]. }
  split; [exact Hgone|]. split.
  - intros g Hg N1 N3 N4. rewrite !ReadFile_spec by assumption. f_equal. apply Hoth; assumption.
  - intros T. destruct (Hnone (or_introl T)) as (K1 & _ & K2). split; [exact K1|].
    intros g Hg N1. rewrite !ReadFile_spec by assumption. f_equal. apply K2; assumption.
Qed.

(** ** ParseCompoundSymbol *)
Lemma C46_refuted_lemma :
  (forall t n, Forall alnum n -> n <> [] -> ByName t n = 0 -> (forall v, hex_number n v -> 65536 <= v) ->
     (valid_name n -> exists e, ParseCompoundSymbol t n = Err e) /\
     (~ valid_name n -> ParseCompoundSymbol t n = Ok (0, 0, n))) /\
  (valid_name (s2b "NEWSYM") /\ exists e, ParseCompoundSymbol [] (s2b "NEWSYM") = Err e) /\
  (~ valid_name (s2b "ZZ") /\ ParseCompoundSymbol [] (s2b "ZZ") = Ok (0, 0, s2b "ZZ")).
Proof.
  split; [exact PCS_new|]. split.
  - split; [apply valid_check; reflexivity|]. eexists. vm_compute. reflexivity.
  - split; [|vm_compute; reflexivity]. intros [H|(H & _)]; [discriminate H|]. vm_compute in H. destruct H as [H _]. apply H. reflexivity.
Qed.
Lemma C46_partial_lemma : forall t p q, no_colon p -> no_colon q -> p <> [] ->
  (ByName t p <> 0 -> ParseCompoundSymbol t p = Ok (0, ByName t p, p)) /\
  (ByName t p = 0 -> forall v, hex_number p v -> v < 65536 -> ParseCompoundSymbol t p = Ok (v, 0, [])) /\
  (forall v, hex_number p v -> v < 65536 -> q <> [] -> valid_name q ->
     ParseCompoundSymbol t (p ++ 58 :: q) = Ok (v, ByName t q, q)) /\
  ((forall v, hex_number p v -> 65536 <= v) \/ q = [] \/ (Forall alnum q /\ ~ valid_name q) ->
     exists e, ParseCompoundSymbol t (p ++ 58 :: q) = Err e) /\
  (exists e, ParseCompoundSymbol t [] = Err e) /\
  (forall x y z, exists e, ParseCompoundSymbol t (x ++ 58 :: y ++ 58 :: z) = Err e).
Proof.
  intros t p q Hp Hq Hn. destruct (PCS_simple t p Hp Hn) as [H1 H2]. destruct (PCS_compound t p q Hp Hq) as [H3 H4].
  destruct (PCS_errors t) as [H5 H6]. repeat (split; [assumption|]). assumption.
Qed.
