(** SupermonChainExProofs.v -- examples for C94: the symbol table of a real disk and edits that
    leave symbols off their chain. *)
From Coq Require Import ZifyBool ZifyNat.
From Verif Require Import GoBase GoLemmas DiskModel TypesModel.
From Verif Require Import SupermonModel SupermonSpec SupermonTableSpec SupermonProofs SupermonSymProofs SupermonTabProofs SupermonLinkProofs SupermonNamedProofs SupermonFinalProofs SupermonRewriteProofs SupermonStmtProofs SupermonReadableProofs SupermonChainSpec SupermonChainProofs.
Ltac Zify.zify_post_hook ::= Z.div_mod_to_equations.
Local Opaque zrange zeros sub.

(** ** Deciding the vocabulary on a list of entries followed by blanks *)
Definition padded (l : list Symbol) : list Symbol := l ++ repeat sym0 (819 - length l).
Lemma padded_len l : (length l <= 819)%nat -> zlen (padded l) = 819.
Proof. intros H. unfold padded. rewrite zlen_app, zlen_repeat. unfold zlen. lia. Qed.
Lemma padded_nth l j : 0 <= j -> znth sym0 (padded l) j = if j <? zlen l then znth sym0 l j else sym0.
Proof.
  intros Hj. unfold padded. rewrite znth_app by exact Hj. destruct (j <? zlen l); [reflexivity|]. apply SupermonFinalProofs.znth_repeat.
Qed.
Lemma padded_used l j : 0 <= j -> ad (padded l) j <> 0 -> j < zlen l.
Proof. intros Hj A. destruct (Z_lt_ge_dec j (zlen l)) as [H|H]; [exact H|]. exfalso. apply A. unfold ad. rewrite padded_nth by lia. replace (j <? zlen l) with false by lia. reflexivity. Qed.
Fixpoint distinct (l : list Symbol) : bool :=
  match l with [] => true | s :: r => (beq (s_name s) [] || forallb (fun x => negb (equal_fold (s_name s) (s_name x))) r) && distinct r end.
Lemma distinct_spec l : distinct l = true -> forall i j, 0 <= i < j -> j < zlen l -> nm l i <> [] -> equal_fold (nm l i) (nm l j) = false.
Proof.
  induction l as [|s r IH]; intros Hd i j Hi Hj Hne; [rewrite (@zlen_nil Symbol) in Hj; lia|].
  cbn [distinct] in Hd. apply andb_true_iff in Hd. destruct Hd as [H1 H2]. rewrite zlen_cons in Hj. unfold nm in *.
  rewrite (znth_cons_S _ _ _ j) by lia. destruct (Z.eq_dec i 0) as [->|Hi0].
  - rewrite znth_cons_0 in *. apply orb_true_iff in H1. destruct H1 as [H1|H1]; [apply beq_eq in H1; contradiction|].
    rewrite forallb_forall in H1. specialize (H1 (znth sym0 r (j - 1))). apply negb_true_iff. apply H1. apply znth_In. lia.
  - rewrite znth_cons_S in * by lia. apply IH; [exact H2|lia|lia|exact Hne].
Qed.
Lemma padded_unique l : distinct l = true -> names_unique (padded l).
Proof.
  intros Hd i j Hi Hj Hne E. unfold nm in *. rewrite !padded_nth in * by lia.
  destruct (Z.ltb_spec i (zlen l)) as [Hil|Hil]; [|contradiction Hne; reflexivity].
  destruct (Z.ltb_spec j (zlen l)) as [Hjl|Hjl]; [|cbn [s_name sym0] in E; apply equal_fold_nil in E; contradiction].
  assert (Hne' : s_name (znth sym0 l j) <> []) by (apply (equal_fold_nonnil _ _ E Hne)).
  destruct (Z.lt_trichotomy i j) as [H|[H|H]]; [|exact H|].
  - pose proof (distinct_spec l Hd i j ltac:(lia) Hjl Hne) as X. unfold nm in X. congruence.
  - pose proof (distinct_spec l Hd j i ltac:(lia) Hil Hne') as X. unfold nm in X. rewrite equal_fold_sym in X. congruence.
Qed.
Definition valid_b (n : bytes) : bool :=
  beq n [] || ((3 <=? zlen n) && (zlen n <=? 9) && forallb is_alnum n && (name_bits n <=? 48)).
Definition s_ok_b (s : Symbol) : bool :=
  (0 <=? s_addr s) && (s_addr s <? 65536) && valid_b (s_name s) && ((s_addr s =? 0) || ((-1 <=? s_link s) && (s_link s <? 819))).
Lemma s_ok_b_spec s : s_ok_b s = true -> s_ok s.
Proof.
  unfold s_ok_b, valid_b. intros H. rewrite !andb_true_iff, !orb_true_iff, !andb_true_iff in H. destruct H as [[[H1 H2] H3] H4].
  split; [unfold is_u16; lia|]. split.
  - destruct H3 as [H3|[[[H3 H5] H6] H7]]; [left; apply beq_eq; exact H3|]. right. split; [lia|]. split; [|lia].
    apply Forall_forall. intros c Hc. rewrite forallb_forall in H6. specialize (H6 c Hc). unfold is_alnum in H6. unfold alnum, letter, digit. lia.
  - intros A. lia.
Qed.
(** [chains] lists the chains of the hashes that have any. *)
Fixpoint chain_of (chains : list (Z * list Z)) (h : Z) : list Z :=
  match chains with [] => [] | (k, c) :: r => if h =? k then c else chain_of r h end.
Fixpoint nodup_b (c : list Z) : bool := match c with [] => true | x :: r => negb (existsb (Z.eqb x) r) && nodup_b r end.
Fixpoint linked_b (l : list Symbol) (c : list Z) : bool :=
  match c with [] => true | j :: r => (s_link (znth sym0 l j) =? hd (-1) r) && linked_b l r end.
Definition chains_b (l : list Symbol) (chains : list (Z * list Z)) : bool :=
  forallb (fun '(h, c) => nodup_b c && linked_b l c &&
     forallb (fun j => (0 <=? j) && (j <? zlen l) && negb (s_addr (znth sym0 l j) =? 0) && (hash7 (s_addr (znth sym0 l j)) =? h)) c) chains &&
  forallb (fun j => (s_addr (znth sym0 l j) =? 0) || existsb (Z.eqb j) (chain_of chains (hash7 (s_addr (znth sym0 l j))))) (zrange (zlen l)).
Lemma existsb_In (x : Z) r : existsb (Z.eqb x) r = true <-> In x r.
Proof. rewrite existsb_exists. split; [intros (y & H & E); apply Z.eqb_eq in E; subst; exact H|intros H; exists x; split; [exact H|apply Z.eqb_refl]]. Qed.
Lemma nodup_b_spec c : nodup_b c = true -> NoDup c.
Proof.
  induction c as [|x r IH]; intros H; [constructor|]. cbn [nodup_b] in H. apply andb_true_iff in H. destruct H as [H1 H2].
  constructor; [|apply IH, H2]. rewrite <- existsb_In. intros E. rewrite E in H1. discriminate.
Qed.
Lemma linked_b_spec l c : (forall j, In j c -> 0 <= j < zlen l) -> linked_b l c = true -> linked (padded l) c.
Proof.
  induction c as [|x r IH]; intros Hr H; [exact I|]. cbn [linked_b] in H. apply andb_true_iff in H. destruct H as [H1 H2]. split.
  - unfold lk. pose proof (Hr x (or_introl eq_refl)). rewrite padded_nth by lia. replace (x <? zlen l) with true by lia. lia.
  - apply IH; [intros j Hj; apply Hr; right; exact Hj|exact H2].
Qed.
Lemma chain_of_cases chains h : chain_of chains h = [] \/ In (h, chain_of chains h) chains.
Proof.
  induction chains as [|[k c] r IH]; [left; reflexivity|]. cbn [chain_of]. destruct (Z.eqb_spec h k) as [->|]; [right; left; reflexivity|].
  destruct IH as [IH|IH]; [left; exact IH|right; right; exact IH].
Qed.
Lemma chains_b_spec l chains : (length l <= 819)%nat -> chains_b l chains = true -> one_chain (padded l) (chain_of chains).
Proof.
  intros HL H. unfold chains_b in H. apply andb_true_iff in H. destruct H as [H1 H2]. rewrite forallb_forall in H1, H2. intros h.
  assert (Hin : forall j, In j (chain_of chains h) -> 0 <= j < zlen l /\ ad (padded l) j <> 0 /\ hash7 (ad (padded l) j) = h).
  { intros j Hj. destruct (chain_of_cases chains h) as [E|E]; [rewrite E in Hj; destruct Hj|]. specialize (H1 _ E). cbv beta iota in H1.
    rewrite !andb_true_iff in H1. destruct H1 as [_ H1]. rewrite forallb_forall in H1. specialize (H1 j Hj). rewrite !andb_true_iff in H1.
    destruct H1 as [[[A B] C] D]. split; [lia|]. unfold ad. rewrite padded_nth by lia. replace (j <? zlen l) with true by lia.
    split; [destruct (Z.eqb_spec (s_addr (znth sym0 l j)) 0); [discriminate C|assumption]|apply Z.eqb_eq; exact D]. }
  assert (Hpl : zlen (padded l) = 819) by (apply padded_len; exact HL).
  destruct (chain_of_cases chains h) as [E|E].
  - rewrite E in *. split; [constructor|]. split; [|exact I]. intros j. split; [intros []|]. intros (Hj & Aj & Eh).
    pose proof (padded_used l j ltac:(lia) Aj) as Hl. specialize (H2 j ltac:(apply In_zrange; lia)).
    unfold ad in *. rewrite padded_nth in * by lia. replace (j <? zlen l) with true in * by lia. rewrite Eh, E in H2.
    destruct (Z.eqb_spec (s_addr (znth sym0 l j)) 0); [contradiction|discriminate H2].
  - pose proof (H1 _ E) as H3. cbv beta iota in H3. rewrite !andb_true_iff in H3. destruct H3 as [[H3 H4] _].
    split; [apply nodup_b_spec, H3|]. split; [|apply linked_b_spec; [intros j Hj; apply (Hin j Hj)|exact H4]].
    intros j. split.
    + intros Hj. destruct (Hin j Hj) as (A & B & C). split; [|split; assumption]. rewrite Hpl. unfold zlen in *. lia.
    + intros (Hj & Aj & Eh). pose proof (padded_used l j ltac:(lia) Aj) as Hl. specialize (H2 j ltac:(apply In_zrange; lia)).
      unfold ad in *. rewrite padded_nth in * by lia. replace (j <? zlen l) with true in * by lia. rewrite Eh in H2.
      destruct (Z.eqb_spec (s_addr (znth sym0 l j)) 0); [contradiction|]. cbn [orb] in H2. apply existsb_In. exact H2.
Qed.
(** Names in upper case, blanks blank. *)
Definition canon_b (s : Symbol) : bool :=
  if s_addr s =? 0 then beq (s_name s) [] && (s_link s =? 0) else beq (upcase (s_name s)) (s_name s).
Lemma canon_b_spec s : canon_b s = true -> canon s = s.
Proof.
  unfold canon_b, canon. destruct s as [a n l]; cbn [s_addr s_name s_link]. destruct (Z.eqb_spec a 0) as [->|Ha].
  - intros H. apply andb_true_iff in H. destruct H as [H1 H2]. apply beq_eq in H1. apply Z.eqb_eq in H2. subst. reflexivity.
  - intros H. apply beq_eq in H. rewrite H. reflexivity.
Qed.
Lemma canon_repeat n : map canon (repeat sym0 n) = repeat sym0 n.
Proof. induction n as [|n IH]; [reflexivity|]. cbn [repeat map]. rewrite IH. reflexivity. Qed.
Definition table_b (l : list Symbol) (chains : list (Z * list Z)) : bool :=
  (zlen l <=? 819) && forallb s_ok_b l && forallb canon_b l && distinct l && chains_b l chains.
Lemma table_b_spec l chains : table_b l chains = true ->
  table_ok (padded l) /\ map_table (padded l) /\ map canon (padded l) = padded l /\ one_chain (padded l) (chain_of chains) /\ chained (padded l).
Proof.
  unfold table_b. rewrite !andb_true_iff. intros [[[[H1 H2] H3] H4] H5]. assert (HL : (length l <= 819)%nat) by (unfold zlen in H1; lia).
  pose proof (chains_b_spec l chains HL H5) as Hc.
  assert (Hs : Forall s_ok (padded l)).
  { apply Forall_app. split; [|apply Forall_forall; intros s Hs; apply repeat_spec in Hs; subst; apply s_ok_b_spec; reflexivity].
    apply Forall_forall. intros s Hs. rewrite forallb_forall in H2. apply s_ok_b_spec, H2, Hs. }
  assert (Hcan : map canon (padded l) = padded l).
  { unfold padded. rewrite map_app, canon_repeat. f_equal. rewrite forallb_forall in H3.
    clear - H3. induction l as [|s l IH]; [reflexivity|]. cbn [map]. rewrite (canon_b_spec s) by (apply H3; left; reflexivity).
    f_equal. apply IH. intros x Hx. apply H3. right. exact Hx. }
  split; [split; [apply padded_len, HL|split; [exact Hs|apply (chains_links _ _ Hc)]]|].
  assert (Hb : blank_links (padded l)) by (rewrite <- Hcan; apply canon_blank_links).
  split; [split; [apply padded_unique, H4|]|split; [exact Hcan|split; [exact Hc|apply (chains_chained _ _ Hc Hb)]]].
  intros j Hj Aj. pose proof (canon_nth (padded l) j Hj) as H. rewrite Hcan in H. unfold nm, ad in *. rewrite H. unfold canon. rewrite Aj. reflexivity.
Qed.

(** ** The symbol table of supermon/testdata/chacha20.dsk *)
Definition real_entries : list Symbol :=
  [ Sym 0xDF01 (s2b "FHELLO") (-1); Sym 0xDF02 (s2b "FSUPERMON") (-1); Sym 0xDF03 (s2b "FSYMTBL1") (-1); Sym 0xDF04 (s2b "FSYMTBL2") (-1); 
    Sym 0xDF05 (s2b "FMONHELP") (-1); Sym 0xFDED (s2b "COUT") (-1); Sym 0xFDF0 (s2b "COUT1") (-1); Sym 0xFE80 (s2b "SETINV") (-1); 
    Sym 0xFE84 (s2b "SETNORM") (-1); Sym 0xFD8E (s2b "CROUT") (-1); Sym 0xE000 (s2b "SUPERMON") (-1); Sym 0xFD8B (s2b "CROUT1") (-1); 
    Sym 0xFDDA (s2b "PRBYTE") (-1); Sym 0x1E8C (s2b "PRHEX") (-1); Sym 0xF941 (s2b "PRNTAX") (-1); Sym 0xF948 (s2b "PRBLNK") (-1); 
    Sym 0xF94A (s2b "PRBL2") (-1); Sym 0xFF3A (s2b "BELL") (-1); Sym 0xFBDD (s2b "BELL1") (-1); Sym 0xFD0C (s2b "RDKEY") (-1); 
    Sym 0xFD35 (s2b "RDCHAR") (-1); Sym 0xFD1B (s2b "KEYIN") (-1); Sym 0xFD6A (s2b "GETLN") (-1); Sym 0xFD67 (s2b "GETLNZ") (-1); 
    Sym 0xFD6F (s2b "GETLN1") 13; Sym 0xFCA8 (s2b "WAIT") (-1); Sym 0xF864 (s2b "SETCOL") (-1); Sym 0xF85F (s2b "NEXTCOL") 12; 
    Sym 0xF800 (s2b "PLOT") (-1); Sym 0xF819 (s2b "HLINE") (-1); Sym 0xF828 (s2b "VLINE") (-1); Sym 0xF832 (s2b "CLRSCR") (-1); 
    Sym 0xF836 (s2b "CLRTOP") (-1); Sym 0xF871 (s2b "SCRN") (-1); Sym 0xFB1E (s2b "PREAD") (-1); Sym 0xFF2D (s2b "PRERR") (-1); 
    Sym 0xFF4A (s2b "IOSAVE") (-1); Sym 0xFF3F (s2b "IOREST") (-1); Sym 0x0024 (s2b "CURSH") (-1); Sym 0x0025 (s2b "CURSV") (-1); 
    Sym 0x0036 (s2b "CSW") (-1); Sym 0x0038 (s2b "KSW") 14; Sym 0x03F8 (s2b "USRADR") (-1); Sym 0x03FB (s2b "NMI") 28; Sym 0x03F0 (s2b "BRKV") 9; 
    Sym 0x03F2 (s2b "SOFTEV") 19; Sym 0x03F4 (s2b "PWREDUP") (-1); Sym 0x03FE (s2b "IRQLOC") (-1); Sym 0xC000 (s2b "KBD") 37; 
    Sym 0xC010 (s2b "KBDSTRB") 30; Sym 0xC030 (s2b "SPKR") (-1); Sym 0xC050 (s2b "TXTCLR") 5; Sym 0xC051 (s2b "TXTSET") (-1); 
    Sym 0xC052 (s2b "MIXCLR") 24; Sym 0xC053 (s2b "MIXSET") (-1); Sym 0xC054 (s2b "LOWSCR") (-1); Sym 0xC055 (s2b "HISCR") (-1); 
    Sym 0xC056 (s2b "LORES") (-1); Sym 0xC057 (s2b "HIRES") 22; Sym 0xC058 (s2b "SETAN0") (-1); Sym 0xC059 (s2b "CLRAN0") (-1); 
    Sym 0xC05A (s2b "SETAN1") 23; Sym 0xC05B (s2b "CLRAN1") (-1); Sym 0xC05C (s2b "SETAN2") 26; Sym 0xC05D (s2b "CLRAN2") (-1); 
    Sym 0xC05E (s2b "SETAN3") (-1); Sym 0xC05F (s2b "CLRAN3") (-1); Sym 0xC020 (s2b "TAPEOUT") 10; Sym 0xC060 (s2b "TAPEIN") (-1); 
    Sym 0xC064 (s2b "PDDLO") 38; Sym 0xC070 (s2b "PTRIG") (-1); Sym 0xFC58 (s2b "HOME") 69; Sym 0xFC9C (s2b "CLREOL") 67; Sym 0xFC22 (s2b "VTAB") 0; 
    Sym 0xFC24 (s2b "VTABZ") (-1); Sym 0xFF65 (s2b "MON") 61; Sym 0xFF69 (s2b "MONZ") 57; Sym 0x0340 (s2b "NAKEDOS") (-1); 
    Sym 0xDC01 (s2b "NKRDFILE") 1; Sym 0xDC02 (s2b "NKWRFILE") 73; Sym 0xDC03 (s2b "NKDELFILE") (-1); Sym 0xDC08 (s2b "NKGETLEN") 25; 
    Sym 0xDC0F (s2b "NKINITCAT") (-1); Sym 0xDC41 (s2b "NKRAWREAD") 64; Sym 0xDC42 (s2b "NKRAWWRIT") 65; Sym 0xDF06 (s2b "FSHORTSUP") (-1); 
    Sym 0xDF07 (s2b "FSHRTHELP") 74; Sym 0xDF08 (s2b "FSHORT") (-1); Sym 0x1C00 (s2b "SHORT0") 63; Sym 0x1C04 (s2b "SHORT1") 59; 
    Sym 0x1C08 (s2b "SHORT2") 55; Sym 0x1C0C (s2b "SHORT3") 51; Sym 0x1C10 (s2b "SHORT1D") (-1); Sym 0x1C14 (s2b "SHORT2D") (-1); 
    Sym 0x1C18 (s2b "SHORT3D") (-1); Sym 0x1E3C (s2b "PTR") (-1); Sym 0x1E44 (s2b "GETPB") 4; Sym 0x1E4C (s2b "SETPB") 35; Sym 0x1E54 (s2b "NOT") 31; 
    Sym 0x1E60 (s2b "INCW") 7; Sym 0x1E6B (s2b "DECW") (-1); Sym 0x1E78 (s2b "IFT") 21; Sym 0x1E84 (s2b "IFNOT") 75; Sym 0x1E92 (s2b "PRDEC") 92; 
    Sym 0x1EC6 (s2b "PRSTR") 86; Sym 0x1ECB (s2b "PRINTF") (-1); Sym 0x1F0D (s2b "RETURN") 53; Sym 0x1F15 (s2b "SETW") (-1); 
    Sym 0x1F1F (s2b "REM") (-1); Sym 0x1F23 (s2b "LOCAL") (-1); Sym 0x1F5F (s2b "LOOP") 48; Sym 0x1F6E (s2b "WHILE") 45; Sym 0x1F80 (s2b "STEP") 66; 
    Sym 0x1F98 (s2b "MAX") (-1); Sym 0x1FAE (s2b "MIN") 15; Sym 0x1FB5 (s2b "MEMSET") (-1); Sym 0x1FDD (s2b "MEMCPY") (-1); 
    Sym 0x1FE3 (s2b "READKEY") (-1); Sym 0x0320 (s2b "NKSTUB") (-1); Sym 0x03EE (s2b "NKSLOTDRV") (-1); Sym 0x03EC (s2b "NKERRVEC") (-1); 
    Sym 0x0400 (s2b "SCREEN") 94; Sym 0x6259 (s2b "INNERBLK") (-1); Sym 0x6291 (s2b "CHACHA20") 44; Sym 0x0006 (s2b "SRC") (-1); 
    Sym 0x0008 (s2b "DST") 93; Sym 0x611B (s2b "ADD32") 8; Sym 0x6000 (s2b "STATE") 72; Sym 0x6040 (s2b "CONST") 68; Sym 0xDF09 (s2b "FCHACHA") (-1); 
    Sym 0x6100 (s2b "TEST") 29; Sym 0x612B (s2b "XOR32") 98; Sym 0x613A (s2b "ROL16") 3; Sym 0x6165 (s2b "ROL12") 121; Sym 0x6152 (s2b "RORX") 16; 
    Sym 0x616E (s2b "ROL8") (-1); Sym 0x6180 (s2b "ROL7") 130; Sym 0x620E (s2b "PRSTATE") (-1); Sym 0x6040 (s2b "INITIAL") 128; 
    Sym 0xDF0A (s2b "FTOBE") 105; sym0; Sym 0x6189 (s2b "PR32") (-1); Sym 0x6194 (s2b "PRVARS") 100; Sym 0x61A9 (s2b "QUARTER") 20; 
    Sym 0x61DB (s2b "QR3") (-1); Sym 0x61C2 (s2b "QR2") 118; Sym 0x61F4 (s2b "QR4") 56; Sym 0x00EE (s2b "INPUT") (-1); Sym 0x6050 (s2b "KEY") 70; 
    Sym 0x6070 (s2b "BLOCK") 91; Sym 0x6074 (s2b "NONCE") 90; Sym 0x6080 (s2b "EXINPUT") 127; Sym 0x6241 (s2b "CPSTATE") 145; 
    Sym 0x622F (s2b "MKINIT") (-1); Sym 0x60C0 (s2b "ROUNDS") 138; Sym 0x6275 (s2b "ADDBACK") 58; Sym 0x62A7 (s2b "CHACHATST") 17 ].
Definition real_chains : list (Z * list Z) :=
  [ (0, [108]); (4, [133; 121; 94]); (6, [124]); (7, [113]); (8, [125; 93]); (9, [33]); (10, [107]); (12,
    [103; 92]); (13, [6]); (15, [135]); (16, [149; 91; 51; 5]); (17, [52]); (18, [106; 53; 24; 13]); (19,
    [54]); (20, [150; 90; 55]); (21, [146; 56]); (22, [76; 57]); (23, [155; 58; 22]); (24, [89; 59]); (25,
    [60]); (26, [102; 75; 61; 23]); (27, [62]); (28, [88; 63; 26]); (29, [83; 64]); (30, [84; 65]); (31,
    [112; 66]); (32, [154; 138; 128; 68]); (34, [95]); (35, [152; 145; 118]); (36, [71; 69; 38]); (37, [39]);
    (38, [18]); (39, [27; 12]); (42, [115]); (48, [148; 70]); (49, [114; 15]); (51, [134; 16]); (53, [36]);
    (54, [40]); (56, [41; 14]); (58, [144]); (59, [122]); (60, [109]); (64, [110; 48; 37]); (66, [116]); (67,
    [77]); (69, [156; 17]); (72, [143; 20]); (74, [131; 98; 31]); (77, [153]); (78, [32]); (80, [49; 30]);
    (82, [97; 35]); (83, [82]); (84, [81; 25]); (85, [139; 105]); (86, [129]); (87, [87]); (88, [104; 86;
    74]); (89, [85]); (90, [96; 4]); (91, [132; 3]); (92, [2]); (93, [78; 1]); (94, [79; 73; 0]); (95, [80]);
    (96, [151; 127; 72; 67; 10]); (97, [136; 130; 29]); (101, [34]); (102, [101; 21]); (104, [141]); (108,
    [137]); (109, [119]); (110, [147]); (111, [120]); (112, [50]); (113, [111; 45; 19]); (115, [123; 44; 9]);
    (117, [142; 100]); (118, [11]); (119, [46]); (120, [43; 28]); (122, [126; 8]); (123, [42]); (124, [117]);
    (125, [47]); (126, [99; 7]) ].
Definition real_table : list Symbol := padded real_entries.
Lemma real_table_ok : table_ok real_table /\ map_table real_table /\ map canon real_table = real_table /\
  one_chain real_table (chain_of real_chains) /\ chained real_table.
Proof. apply table_b_spec. vm_compute. reflexivity. Qed.
(** Deleting FHELLO, its first entry, does no harm; after FSUPERMON has been deleted, it makes the
    table unreadable (see [damaging]). *)
Lemma real_damage : ~ damaging real_table 0 /\ ~ orphans real_table 0 /\
  damaging (map canon (fst (DeleteSymbol real_table (s2b "FSUPERMON")))) 0 /\
  nm (map canon (fst (DeleteSymbol real_table (s2b "FSUPERMON")))) 0 = s2b "FHELLO".
Proof.
  assert (Hno : ~ orphans real_table 0).
  { intros (j & Hj & Aj & Ej & _ & k & Hk & Ak).
    assert (H : forallb (fun j => if ad real_table j =? 0 then true else if negb (lk real_table j =? 0) then true else
                 forallb (fun k => (k =? 0) || negb (ad real_table k =? 0)) (zrange j)) (zrange 819) = true) by (vm_compute; reflexivity).
    rewrite forallb_forall in H. destruct real_table_ok as ((HL & _) & _). rewrite HL in Hj. specialize (H j (proj2 (In_zrange 819 j) Hj)). cbv beta in H.
    destruct (Z.eqb_spec (ad real_table j) 0) as [E|_]; [contradiction|]. rewrite Ej in H. cbn [Z.eqb negb] in H.
    rewrite forallb_forall in H. specialize (H k ltac:(apply In_zrange; clear - Hk; lia)). rewrite Ak in H. clear - H Hk. lia. }
  split; [intros (_ & H); exact (Hno H)|]. split; [exact Hno|]. split.
  - split; [vm_compute; discriminate|]. exists 73. split; [vm_compute; split; [discriminate|reflexivity]|]. split; [vm_compute; discriminate|].
    split; [vm_compute; reflexivity|]. split; [reflexivity|]. exists 1. split; [lia|vm_compute; reflexivity].
  - vm_compute. reflexivity.
Qed.

(** ** Disks with a given table *)
Lemma write_disk s t t' : plain_disk s t -> table_ok t' -> exists s', WriteSymbolTable t' s = (s', Ok tt) /\ plain_disk s' (map canon t').
Proof.
  intros (Hf & H3 & H4 & _) Ht. destruct s as [d sm]. cbn [fst snd] in *.
  destruct (C35_lemma t' d sm Hf Ht H3 H4) as (d' & sm' & EW & Hf' & ER & _ & K3 & K4 & _).
  exists (d', sm'). split; [exact EW|]. split; [exact Hf'|]. split; [exact K3|]. split; [exact K4|exact ER].
Qed.
Lemma any_disk t : table_ok t -> map canon t = t -> exists s, plain_disk s t.
Proof.
  intros Ht Hc. destruct C35_example_lemma as (_ & d & sm & Hf & H3 & H4).
  destruct (C35_lemma t d sm Hf Ht H3 H4) as (d' & sm' & EW & Hf' & ER & _ & K3 & K4 & _).
  exists (d', sm'). split; [exact Hf'|]. split; [exact K3|]. split; [exact K4|]. unfold disk_table. cbn [fst snd]. rewrite ER, Hc. reflexivity.
Qed.
Lemma edit_add s t n a t' t'' : plain_disk s t -> AddSymbol t n a = (t', Ok tt) -> table_ok t' -> map canon t' = t'' ->
  exists s', disk_edit (SAdd n a) s = Ok (s', OAdded) /\ plain_disk s' t''.
Proof.
  intros Hd Ea Ht Hc. destruct (write_disk s t t' Hd Ht) as (s' & EW & Hd'). exists s'. rewrite Hc in Hd'. split; [|exact Hd'].
  unfold disk_edit. rewrite (proj2 (proj2 (proj2 Hd))). cbn [rbind]. rewrite Ea, EW. reflexivity.
Qed.

(** ** A symbol that is left off its chain *)
Definition off_ops : list sym_op := [SAdd (s2b "AAA") 0xDF01; SAdd (s2b "BBB") 0xDFDF; SAdd (s2b "AAA") 0xDF5F].
Definition off_table : list Symbol := padded [Sym 0xDF5F (s2b "AAA") (-1); Sym 0xDFDF (s2b "BBB") (-1)].
Lemma off_no_chain : ~ exists c, one_chain off_table c.
Proof.
  intros [c Hc]. destruct (Hc 0) as (_ & Hmem & Hl).
  assert (H0 : In 0 (c 0)) by (apply Hmem; split; [vm_compute; split; [discriminate|reflexivity]|split; [vm_compute; discriminate|vm_compute; reflexivity]]).
  assert (H1 : In 1 (c 0)) by (apply Hmem; split; [vm_compute; split; [discriminate|reflexivity]|split; [vm_compute; discriminate|vm_compute; reflexivity]]).
  destruct (linked_last off_table (c 0) 0 (fun i H => chain_pos _ c 0 i Hc H) Hl H0 ltac:(vm_compute; reflexivity)) as [c0 E0].
  destruct (linked_last off_table (c 0) 1 (fun i H => chain_pos _ c 0 i Hc H) Hl H1 ltac:(vm_compute; reflexivity)) as [c1 E1].
  rewrite E0 in E1. apply app_inj_tail in E1. destruct E1 as [_ E1]. discriminate E1.
Qed.
Lemma off_edits s : plain_disk s (repeat sym0 819) -> exists s', disk_edits off_ops s = Ok (s', [OAdded; OAdded; OAdded]) /\ plain_disk s' off_table.
Proof.
  intros Hd.
  remember (padded [Sym 0xDF01 (s2b "AAA") (-1)]) as t1 eqn:E1.
  remember (padded [Sym 0xDF01 (s2b "AAA") (-1); Sym 0xDFDF (s2b "BBB") (-1)]) as t2 eqn:E2.
  assert (T1 : table_ok t1 /\ map canon t1 = t1).
  { rewrite E1. destruct (table_b_spec [Sym 0xDF01 (s2b "AAA") (-1)] [(94, [0])] ltac:(vm_compute; reflexivity)) as (A & _ & B & _). split; [exact A|exact B]. }
  assert (T2 : table_ok t2 /\ map canon t2 = t2).
  { rewrite E2. destruct (table_b_spec [Sym 0xDF01 (s2b "AAA") (-1); Sym 0xDFDF (s2b "BBB") (-1)] [(94, [0]); (0, [1])] ltac:(vm_compute; reflexivity)) as (A & _ & B & _). split; [exact A|exact B]. }
  remember (fst (AddSymbol t2 (s2b "AAA") 0xDF5F)) as t3 eqn:E3.
  assert (Et3 : t3 = padded [Sym 0xDF5F (s2b "AAA") (-1); Sym 0xDFDF (s2b "BBB") (-1); Sym 0 [] (-1)]) by (rewrite E3, E2; vm_compute; reflexivity).
  assert (T3 : table_ok t3 /\ map canon t3 = off_table).
  { rewrite Et3. split; [|vm_compute; reflexivity]. split; [vm_compute; reflexivity|]. split.
    - apply Forall_forall. intros x Hx. apply s_ok_b_spec. revert x Hx. apply forallb_forall. vm_compute. reflexivity.
    - intros i Hi. unfold link_ok. intros Ai Li. exfalso. apply Li. rewrite padded_nth in * by (clear - Hi; lia).
      destruct (Z.ltb_spec i (zlen [Sym 0xDF5F (s2b "AAA") (-1); Sym 0xDFDF (s2b "BBB") (-1); Sym 0 [] (-1)])) as [H|H]; [|contradiction Ai; reflexivity].
      rewrite !zlen_cons, (@zlen_nil Symbol) in H. assert (i = 0 \/ i = 1 \/ i = 2) as [->|[->| ->]] by (clear - Hi H; lia); reflexivity. }
  destruct (edit_add s _ (s2b "AAA") 0xDF01 t1 t1 Hd) as (s1 & F1 & Hd1); [rewrite E1; vm_compute; reflexivity|apply T1|apply T1|].
  destruct (edit_add s1 _ (s2b "BBB") 0xDFDF t2 t2 Hd1) as (s2 & F2 & Hd2); [rewrite E1, E2; vm_compute; reflexivity|apply T2|apply T2|].
  destruct (edit_add s2 _ (s2b "AAA") 0xDF5F t3 off_table Hd2) as (s3 & F3 & Hd3); [rewrite E3, E2; vm_compute; reflexivity|apply T3|apply T3|].
  exists s3. split; [|exact Hd3]. unfold off_ops. cbn [disk_edits]. rewrite F1. cbn [rbind fst snd]. rewrite F2. cbn [rbind fst snd]. rewrite F3. reflexivity.
Qed.
Lemma valid_b_spec n : valid_b n = true -> valid_name n.
Proof. intros H. apply (s_ok_b_spec (Sym 0 n 0)). unfold s_ok_b. cbn [s_addr s_name s_link]. rewrite H. reflexivity. Qed.
Definition edit_ok_b (op : sym_op) : bool :=
  negb (beq (op_name op) []) && match op with SAdd n a => valid_b n && (0 <=? a) && (a <? 65536) | SDel _ => true end.
Lemma edit_ok_b_spec ops : forallb edit_ok_b ops = true -> Forall edit_ok ops.
Proof.
  intros H. apply Forall_forall. intros op Hop. rewrite forallb_forall in H. specialize (H op Hop). unfold edit_ok_b in H.
  apply andb_true_iff in H. destruct H as [H1 H2]. split.
  - intros E. rewrite E in H1. discriminate H1.
  - destruct op as [n a|n]; [|exact I]. rewrite !andb_true_iff in H2. destruct H2 as [[H2 H3] H4]. split; [apply valid_b_spec, H2|unfold is_u16; lia].
Qed.
Lemma C94_refuted_lemma : exists ops, Forall edit_ok ops /\ (exists s, plain_disk s (repeat sym0 819)) /\
  forall s, plain_disk s (repeat sym0 819) ->
    exists s' t', disk_edits ops s = Ok (s', [OAdded; OAdded; OAdded]) /\ disk_table s' = Ok t' /\ ~ exists c, one_chain t' c.
Proof.
  exists off_ops. split; [apply edit_ok_b_spec; vm_compute; reflexivity|]. split.
  - destruct (table_b_spec [] [] ltac:(vm_compute; reflexivity)) as (A & _ & B & _). apply any_disk; [exact A|exact B].
  - intros s Hd. destruct (off_edits s Hd) as (s' & E & Hd'). exists s', off_table. split; [exact E|]. split; [apply Hd'|exact off_no_chain].
Qed.
Definition real_ops : list sym_op :=
  [SDel (s2b "fsupermon"); SAdd (s2b "NewSym") 0xDF20; SAdd (s2b "newsym") 0xDF21; SDel (s2b "PLOT"); SDel (s2b "nothere"); SAdd (s2b "VTAB") 0x0301].
Lemma C94_example_lemma : exists s c, plain_disk s real_table /\ table_ok real_table /\ names_unique real_table /\ one_chain real_table c /\
  c 94 = [79; 73; 0] /\ Forall edit_ok real_ops /\ spares_first real_table real_ops.
Proof.
  destruct real_table_ok as (A & B & C & D & _). destruct (any_disk real_table A C) as [s Hs]. exists s, (chain_of real_chains).
  split; [exact Hs|]. split; [exact A|]. split; [apply B|]. split; [exact D|]. split; [vm_compute; reflexivity|].
  split; [apply edit_ok_b_spec; vm_compute; reflexivity|]. split; [vm_compute; discriminate|].
  unfold real_ops. repeat (apply Forall_cons; [split; [vm_compute; reflexivity|first [exact I|vm_compute; discriminate]]|]). constructor.
Qed.
