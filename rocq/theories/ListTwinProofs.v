(** ListTwinProofs.v -- what dump does with the name of one of several files of the same name (C89). *)
From Verif Require Import GoBase GoLemmas TypesModel DiskModel DiskSpec DiskProofs.
From Verif Require Import SupermonModel SupermonSpec SupermonTableSpec SupermonStoreSpec SupermonProofs SupermonOpProofs SupermonNameProofs SupermonFinalProofs SupermonNamedProofs SupermonStmtProofs.
From Verif Require Dos3Model Dos3Spec Dos3Proofs Dos3StmtProofs.
From Verif Require ProdosSpec.
From Verif Require Import ProdosModel CmdModel CmdSpec CmdProofs CmdStmtProofs NakedCmdSpec NakedCmdProofs NakedOpenProofs NakedNameProofs NakedExProofs DetectSpec DetectProofs PrintProofs ListSpec ListProofs.
From Coq Require Import ZifyBool ZifyNat.
Ltac Zify.zify_post_hook ::= Z.div_mod_to_equations.
Local Opaque zrange zeros sub.

Section Twins.
  Context (iter : list (Z * Subdirectory) -> list (Z * Subdirectory)).

  (** ls --short shows [shown t f] for file [f]; dump of that name gives the file it resolves to. *)
  Lemma short_exact img order system c d o t f w : ProdosSpec.an_order iter -> seen_as img order c (s2b "nakedos") d o ->
    (system = s2b "auto" \/ system = s2b "nakedos") -> names_on d t -> input w img c -> w_outroom w = None ->
    legal f -> file_on d f <> [] ->
    eventually (fun fuel => shows_line (LsCmd_Run iter fuel order system true img []) w (shown t f)) /\
    ((exists g, resolves t (shown t f) g /\ file_on d g <> [] /\
        eventually (fun fuel => prints (DumpCmd_Run iter fuel order system img (shown t f)) w (file_on d g))) \/
     (~ (exists g, resolves t (shown t f) g /\ file_on d g <> []) /\
        eventually (fun fuel => fails_cleanly (DumpCmd_Run iter fuel order system img (shown t f)) w))).
  Proof.
    intros Hi Hs Hsys Ht Hin Hw Hf Hne. split; [apply (ls_naked_line iter img order system c d o t true w f); assumption|].
    destruct (FileForName_spec t (shown t f)) as [(g & _ & Hr & _)|[_ Hno]].
    - destruct (list_eq_dec Z.eq_dec (file_on d g) []) as [E|E].
      + right. split; [intros (g' & Hr' & Hn'); rewrite (resolves_det _ _ _ _ Hr' Hr) in Hn'; contradiction|].
        apply (proj2 (dump_nakedos iter img order system c d o t (shown t f) g w Hi Hs Hsys Ht Hin)). right. split; assumption.
      + left. exists g. split; [exact Hr|]. split; [exact E|].
        apply (proj1 (dump_nakedos iter img order system c d o t (shown t f) g w Hi Hs Hsys Ht Hin)); assumption.
    - right. split; [intros (g' & Hr' & _); exact (Hno g' Hr')|].
      apply (proj2 (dump_nakedos iter img order system c d o t (shown t f) f w Hi Hs Hsys Ht Hin)). left. exact Hno.
  Qed.

  (** Of several DOS 3.3 files of one name, the first is printed. *)
  Lemma dos_twins img order system c d o l a e b e2 n ls data start out w : ProdosSpec.an_order iter -> seen_as img order c (s2b "dos3") d o ->
    (system = s2b "auto" \/ system = s2b "dos3") -> bytes_ok d -> Dos3Spec.catalog d l -> input w img c -> w_outroom w = None ->
    Dos3Spec.entries d l = a ++ e :: b -> Dos3Spec.is_live e = true -> Dos3Spec.entry_name e n ->
    (forall x, In x a -> Dos3Spec.is_live x = true -> ~ Dos3Spec.entry_name x n) ->
    In e2 b -> Dos3Spec.is_live e2 = true -> Dos3Spec.entry_name e2 n ->
    Dos3Spec.body d (znth 0 e 0, znth 0 e 1) ls data -> Dos3Spec.decoded (znth 0 e 2 mod 128) (zlen ls) data start out ->
    eventually (fun fuel => (forall short, shows_line (LsCmd_Run iter fuel order system short img []) w n) /\
      prints (DumpCmd_Run iter fuel order system img n) w out /\
      forall ls2 data2 start2 out2, Dos3Spec.body d (znth 0 e2 0, znth 0 e2 1) ls2 data2 ->
        Dos3Spec.decoded (znth 0 e2 2 mod 128) (zlen ls2) data2 start2 out2 -> out2 <> out ->
        ~ prints (DumpCmd_Run iter fuel order system img n) w out2).
  Proof.
    intros Hi Hs Hsys B C Hin Hw Ee Hl Hn Ha _ _ _ Hb Hd.
    assert (Hlk : Dos3Spec.lookup (Dos3Spec.entries d l) n e) by (exists a, b; repeat split; assumption).
    eapply eventually_impl; [|exact (dos_names iter img order system c d o l e n ls data start out w Hi Hs Hsys B C Hin Hw Hlk Hb Hd)].
    intros k (Hls & Hp). split; [exact Hls|]. split; [exact Hp|]. intros ls2 data2 start2 out2 _ _ Hne (w2 & Er & _ & Eo). destruct Hp as (w1 & Er1 & _ & Eo1).
    rewrite Er in Er1. injection Er1 as <-. rewrite Eo in Eo1. apply app_inv_head in Eo1. contradiction.
  Qed.
End Twins.

(** Two entries called FHELLO, for the files 3 and 5. *)
Definition twin_table : list Symbol :=
  Sym 0xDF03 (s2b "FHELLO") (-1) :: Sym 0xDF05 (s2b "FHELLO") (-1) :: Sym 0xDF04 (s2b "FSYMTBL2") (-1) :: repeat sym0 816.
Lemma twin_table_ok : table_ok twin_table /\ map canon twin_table = twin_table.
Proof.
  unfold twin_table. split; [|vm_compute; reflexivity]. split; [apply three_len|]. split.
  - do 3 (constructor; [split; [unfold is_u16; cbn; lia|]; split; [apply valid_check; reflexivity | cbn; lia]|]). apply repeat_ok.
  - intros i Hi. rewrite three_len in Hi. unfold link_ok. rewrite three_len, three_nth by lia.
    destruct (Z.eqb_spec i 0); [cbn; lia|]. destruct (Z.eqb_spec i 1); [cbn; lia|].
    destruct (Z.eqb_spec i 2); cbn; lia.
Qed.
Lemma twin_symbol_example : exists c d, seen_as (s2b "x.do") (s2b "auto") c (s2b "nakedos") d (s2b "do") /\ names_on d twin_table /\
  file_on d 5 <> [] /\ shown twin_table 5 = s2b "FHELLO" /\ resolves twin_table (s2b "FHELLO") 3 /\ file_on d 3 <> [] /\ file_on d 3 <> file_on d 5.
Proof.
  destruct twin_table_ok as (T1 & T4). destruct (table_disk twin_table T1 T4) as (c & d & H1 & Ht & H2 & H3 & H4 & _ & Hni & _).
  exists c, d. split; [exact H1|]. split; [exact H2|]. split; [rewrite H3; intros E; apply (f_equal (@zlen Z)) in E; rewrite zlen_zeros in E; [discriminate E|lia]|].
  split; [vm_compute; reflexivity|]. split; [apply FileForName_resolves; vm_compute; reflexivity|]. split; [exact H4|]. rewrite H3.
  intros E. destruct Ht as (op & En & Et). destruct (NewOperator_ok d op (fl_len _ _ (proj2 Hni)) En) as (Hok & Ed & Em & H5).
  rewrite Et in H5. assert (HR : ReadSymbolTable (stored_map d) d = Ok twin_table).
  { unfold opened_table in H5. destruct (ReadSymbolTable (stored_map d) d); congruence. }
  destruct (table_files _ _ _ (fl_len _ _ (proj2 Hni)) HR) as [T3 _].
  apply (f_equal (@zlen Z)) in E. unfold file_on in E. rewrite zlen_content in E by apply (fl_len _ _ (proj2 Hni)). rewrite T3, zlen_zeros in E by lia. lia.
Qed.

(** The example disk with MEMO renamed to DATA. *)
Definition ex_twin_disk : bytes := upd Dos3StmtProofs.ex_dos_disk (offset 17 14 + 11 + 35 * 3 + 3) (Dos3StmtProofs.ex_name (s2b "DATA")).
Lemma twin_bytes : bytes_ok ex_twin_disk.
Proof. apply Dos3StmtProofs.bytes_ok_forallb. vm_compute. reflexivity. Qed.
Lemma twin_len : zlen ex_twin_disk = 143360.
Proof. vm_compute. reflexivity. Qed.
Lemma twin_catalog : Dos3Spec.catalog ex_twin_disk [(17, 15); (17, 14)].
Proof.
  pose proof twin_len as L.
  assert (Dos3Spec.in_image ex_twin_disk 17 0) as Hi by (unfold Dos3Spec.in_image; rewrite L; unfold offset; lia).
  assert (znth 0 (Dos3Spec.vtoc ex_twin_disk) 0x35 = 16) as S by (vm_compute; reflexivity).
  split; [exact Hi|]. split.
  - apply Dos3StmtProofs.good_vtoc_check; [exact twin_bytes | exact Hi | vm_compute; reflexivity].
  - assert (Dos3Spec.catalog_start ex_twin_disk = (17, 15)) as -> by (vm_compute; reflexivity).
    assert (Dos3Spec.link ex_twin_disk 17 15 = (17, 14)) as E1 by (vm_compute; reflexivity).
    assert (Dos3Spec.link ex_twin_disk 17 14 = (0, 0)) as E2 by (vm_compute; reflexivity).
    constructor; [discriminate | unfold Dos3Spec.catalog_place; rewrite S, L; unfold offset; lia|]. rewrite E1.
    constructor; [discriminate | unfold Dos3Spec.catalog_place; rewrite S, L; unfold offset; lia|]. rewrite E2. constructor.
Qed.
Lemma twin_seen : seen_as (s2b "x.dsk") (s2b "auto") ex_twin_disk (s2b "dos3") ex_twin_disk (s2b "do").
Proof.
  pose proof twin_len as L.
  apply (sa_floppy _ _ _ [] _ [s2b "po"]); [exact L|exact twin_bytes|exact auto_dsk|constructor|].
  apply ra_dos; [apply (reordered_self _ _ _ L il_do)|eexists; exact twin_catalog].
Qed.
(** A file of one list and one sector. *)
Lemma one_body d t s t2 s2 : zlen d = 143360 -> (t, s) <> (0, 0) -> (t2, s2) <> (0, 0) -> Dos3Spec.in_image d t s -> Dos3Spec.in_image d t2 s2 ->
  Dos3Spec.link d t s = (0, 0) -> Dos3Spec.pairs (sector d t s) = (t2, s2) :: repeat (0, 0) 121 ->
  Dos3Spec.body d (t, s) [(t, s)] (sector d t2 s2).
Proof.
  intros L N1 N2 I1 I2 EL EP. split.
  - constructor; [exact N1|exact I1|]. rewrite EL. constructor.
  - exists [(t2, s2)]. split; [|split].
    + constructor. right. exists (t2, s2), (repeat (0, 0) 121). split; [exact N2|]. split; [apply Forall_forall; intros x Hx; apply repeat_spec in Hx; exact Hx|].
      split; [exists []; reflexivity|exact EP].
    + constructor; [|constructor]. right. exact I2.
    + cbn [map concat]. rewrite app_nil_r. unfold Dos3Spec.pair_bytes. cbn [fst snd].
      destruct (Z.eqb_spec t2 0); destruct (Z.eqb_spec s2 0); try reflexivity. subst. contradiction.
Qed.
Lemma twin_dos_example : exists a e b e2 ls data start out ls2 data2 start2 out2,
  seen_as (s2b "x.dsk") (s2b "auto") ex_twin_disk (s2b "dos3") ex_twin_disk (s2b "do") /\ bytes_ok ex_twin_disk /\
  Dos3Spec.catalog ex_twin_disk [(17, 15); (17, 14)] /\
  Dos3Spec.entries ex_twin_disk [(17, 15); (17, 14)] = a ++ e :: b /\ Dos3Spec.is_live e = true /\ Dos3Spec.entry_name e (s2b "DATA") /\
  (forall x, In x a -> Dos3Spec.is_live x = true -> ~ Dos3Spec.entry_name x (s2b "DATA")) /\
  In e2 b /\ Dos3Spec.is_live e2 = true /\ Dos3Spec.entry_name e2 (s2b "DATA") /\
  Dos3Spec.body ex_twin_disk (znth 0 e 0, znth 0 e 1) ls data /\ Dos3Spec.decoded (znth 0 e 2 mod 128) (zlen ls) data start out /\
  Dos3Spec.body ex_twin_disk (znth 0 e2 0, znth 0 e2 1) ls2 data2 /\ Dos3Spec.decoded (znth 0 e2 2 mod 128) (zlen ls2) data2 start2 out2 /\ out2 <> out.
Proof.
  pose proof twin_len as L.
  assert (HL : offset 18 13 + 256 <= 143360 /\ offset 18 12 + 256 <= 143360 /\ offset 18 5 + 256 <= 143360 /\ offset 18 10 + 256 <= 143360)
    by (unfold offset; lia). destruct HL as (H1 & H2 & H3 & H4).
  assert (HB1 : Dos3Spec.body ex_twin_disk (18, 13) [(18, 13)] (sector ex_twin_disk 18 12)).
  { apply one_body; [exact L|discriminate|discriminate|unfold Dos3Spec.in_image; rewrite L; exact H1|unfold Dos3Spec.in_image; rewrite L; exact H2|vm_compute; reflexivity|vm_compute; reflexivity]. }
  assert (HB2 : Dos3Spec.body ex_twin_disk (18, 5) [(18, 5)] (sector ex_twin_disk 18 10)).
  { apply one_body; [exact L|discriminate|discriminate|unfold Dos3Spec.in_image; rewrite L; exact H3|unfold Dos3Spec.in_image; rewrite L; exact H4|vm_compute; reflexivity|vm_compute; reflexivity]. }
  exists (firstn 2 (Dos3Spec.entries ex_twin_disk [(17, 15); (17, 14)])), (Dos3StmtProofs.ex_entry 18 13 4 (s2b "DATA") 2),
    (skipn 3 (Dos3Spec.entries ex_twin_disk [(17, 15); (17, 14)])), (Dos3StmtProofs.ex_entry 18 5 0 (s2b "DATA") 2),
    [(18, 13)], (sector ex_twin_disk 18 12), (Dos3Spec.word (sector ex_twin_disk 18 12) 0),
    (sub (Dos3Spec.pad (sector ex_twin_disk 18 12) (31232 * 1)) 4 (4 + Dos3Spec.word (sector ex_twin_disk 18 12) 2)),
    [(18, 5)], (sector ex_twin_disk 18 10), 0, [0xC1; 0xC2].
  split; [exact twin_seen|]. split; [exact twin_bytes|]. split; [exact twin_catalog|].
  split; [vm_compute; reflexivity|]. split; [reflexivity|].
  split. { replace (s2b "DATA") with (Dos3Model.TrimRightSpaces (Dos3Spec.clear_high (sub (Dos3StmtProofs.ex_entry 18 13 4 (s2b "DATA") 2) 3 33))) by (vm_compute; reflexivity). apply Dos3Proofs.Trim_trimmed. }
  split.
  { intros x Hx Hlx Hn.
    assert (Hc : forallb (fun x => negb (Dos3Spec.is_live x) || negb (beq (Dos3Model.TrimRightSpaces (Dos3Spec.clear_high (sub x 3 33))) (s2b "DATA")))
      (firstn 2 (Dos3Spec.entries ex_twin_disk [(17, 15); (17, 14)])) = true) by (vm_compute; reflexivity).
    rewrite forallb_forall in Hc. specialize (Hc x Hx). rewrite Hlx in Hc.
    pose proof (Dos3Proofs.trimmed_unique _ _ _ Hn (Dos3Proofs.Trim_trimmed _)) as Eq.
    rewrite <- Eq in Hc. rewrite beq_refl in Hc. discriminate Hc. }
  split. { assert (E : skipn 3 (Dos3Spec.entries ex_twin_disk [(17, 15); (17, 14)]) = firstn 7 (skipn 3 (Dos3Spec.entries ex_twin_disk [(17, 15); (17, 14)])) ++
      Dos3StmtProofs.ex_entry 18 5 0 (s2b "DATA") 2 :: skipn 11 (Dos3Spec.entries ex_twin_disk [(17, 15); (17, 14)])) by (vm_compute; reflexivity).
    rewrite E. apply in_or_app. right. left. reflexivity. }
  split; [vm_compute; reflexivity|].
  split. { replace (s2b "DATA") with (Dos3Model.TrimRightSpaces (Dos3Spec.clear_high (sub (Dos3StmtProofs.ex_entry 18 5 0 (s2b "DATA") 2) 3 33))) by (vm_compute; reflexivity). apply Dos3Proofs.Trim_trimmed. }
  split; [exact HB1|].
  split. { apply (Dos3Spec.dec_binary _ _ (sector ex_twin_disk 18 12)); [reflexivity|reflexivity|apply Z.leb_le; vm_compute; reflexivity]. }
  split; [exact HB2|].
  split. { apply Dos3Spec.dec_text; [vm_compute; reflexivity|]. exists 254%nat, 0xC2. split; [vm_compute; reflexivity|]. split; [discriminate|]. exists [0xC1]. reflexivity. }
  intros E. apply (f_equal (@zlen Z)) in E. vm_compute in E. discriminate E.
Qed.
