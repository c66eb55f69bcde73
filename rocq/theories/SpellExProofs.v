(** SpellExProofs.v -- examples for property C116. *)
From Coq Require Import ZifyBool ZifyNat.
From Verif Require Import GoBase GoLemmas TypesModel DiskModel DiskSpec DiskProofs DiskOpenProofs.
From Verif Require Import SupermonModel SupermonSpec SupermonTableSpec SupermonBreakSpec SupermonStoreSpec SupermonProofs SupermonSymProofs SupermonTabProofs SupermonLinkProofs SupermonOpProofs SupermonNameProofs SupermonFinalProofs SupermonNamedProofs SupermonStmtProofs.
From Verif Require ProdosSpec Dos3Spec Dos3StmtProofs.
From Verif Require Import ProdosModel CmdModel CmdSpec CmdProofs CmdStmtProofs NakedCmdSpec NakedCmdProofs NakedOpenProofs NakedNameProofs NakedExProofs DetectSpec DetectProofs PrintProofs ListSpec ListProofs OpenFuelProofs AfterProofs AfterExProofs
  SessionSpec SessionExProofs StatusSpec StatusProofs SpellProofs SpellCmdProofs SettledExProofs.
Ltac Zify.zify_post_hook ::= Z.div_mod_to_equations.
Local Opaque zrange zeros sub.

Lemma fhello_five n : parseAddressFilename n = 0 -> FileForName ex_table n = Ok 5 -> (forall g, ~ numeric n g) /\ symbol_file ex_table n 5.
Proof.
  intros E F. assert (Hn : forall g, ~ numeric n g) by (apply not_numeric; exact E). split; [exact Hn|].
  apply FileForName_resolves in F as [F|[_ F]]; [contradiction (Hn _ F)|exact F].
Qed.
Lemma spell_example iter fuel : exists w w' c d,
  input w (s2b "x.do") c /\ seen_as (s2b "x.do") (s2b "auto") c (s2b "nakedos") d (s2b "do") /\ names_on d ex_table /\
  run (PutCmd_Run iter fuel (s2b "auto") (s2b "auto") (s2b "B") false 0 (s2b "x.do") (s2b "NEWFILE") (s2b "f")) w = (w', Ok tt) /\
  put_meaning d ex_table (s2b "NEWFILE") 1 (s2b "NEWFILE") true /\ put_meaning d ex_table (s2b "df01:NewFile") 1 (s2b "NewFile") true /\ upcase (s2b "NEWFILE") = upcase (s2b "NewFile") /\
  put_meaning d ex_table (s2b "5") 5 [] false /\ put_meaning d ex_table (s2b "FHello") 5 (s2b "FHello") false /\ put_meaning d ex_table (s2b "05:FHELLO") 5 (s2b "FHELLO") false /\
  valid_name [] /\ valid_name (s2b "FHello") /\ valid_name (s2b "FHELLO") /\
  resolves ex_table (s2b "FHello") 5 /\ resolves ex_table (s2b "DF05") 5 /\ target ex_table (s2b "FHello") 5 /\ target ex_table (s2b "5:ANYNAME") 5 /\
  numeric (s2b "DF05") 5 /\ numeric (s2b "5") 5 /\ no_numeric_symbols ex_table.
Proof.
  destruct ex_table_ok as (T1 & T2 & T3 & T4).
  destruct (put_new iter fuel ex_table T1 T4 T2 T3 ltac:(vm_compute; reflexivity) ltac:(vm_compute; discriminate))
    as (w & w' & c & d & new & d' & Hif & Hin & Hbc & Hw & Hseen & Htb & Hnm & H1 & Hrun & _).
  exists w, w', c, d. split; [exact Hin|]. split; [exact Hseen|]. split; [exact Hnm|]. split; [exact Hrun|].
  assert (Hnn : forall n, parseAddressFilename n = 0 -> forall g, ~ numeric n g) by (intros n; apply not_numeric).
  assert (Hno : forall n, find_name ex_table n 0 = None -> forall g, ~ symbol_file ex_table n g).
  { intros n E g (_ & i & (Hi & Hf & _) & _). pose proof (find_name_spec ex_table n 0) as HF. rewrite E in HF. rewrite equal_fold_sym, (HF i Hi) in Hf. discriminate Hf. }
  assert (N1 : numeric (s2b "df01") 1) by (apply numeric_parse; [vm_compute; reflexivity|lia]).
  assert (N5 : numeric (s2b "5") 5) by (apply numeric_parse; [vm_compute; reflexivity|lia]).
  assert (N5b : numeric (s2b "05") 5) by (apply numeric_parse; [vm_compute; reflexivity|lia]).
  assert (N5c : numeric (s2b "DF05") 5) by (apply numeric_parse; [vm_compute; reflexivity|lia]).
  assert (V1 : valid_name (s2b "FHello")) by (apply valid_check; reflexivity).
  assert (V2 : valid_name (s2b "FHELLO")) by (apply valid_check; reflexivity).
  destruct (fhello_five (s2b "FHello") ltac:(vm_compute; reflexivity) ltac:(vm_compute; reflexivity)) as [A1 A2].
  destruct (fhello_five (s2b "FHELLO") ltac:(vm_compute; reflexivity) ltac:(vm_compute; reflexivity)) as [B1 B2].
  split; [|split; [|split; [vm_compute; reflexivity|]]].
  { apply pm_new; [apply valid_no_colon, valid_check; reflexivity| |unfold legal; lia|exact H1|intros g Hg; lia].
    intros g [Hg|[_ Hg]]; [exact (Hnn (s2b "NEWFILE") ltac:(vm_compute; reflexivity) g Hg)|exact (Hno (s2b "NEWFILE") ltac:(vm_compute; reflexivity) g Hg)]. }
  { change (s2b "df01:NewFile") with (s2b "df01" ++ 58 :: s2b "NewFile"). apply pm_at; [exact N1|apply valid_no_colon, valid_check; reflexivity|apply Hnn; vm_compute; reflexivity|apply Hno; vm_compute; reflexivity]. }
  split; [apply pm_number; exact N5|]. split; [apply pm_symbol; [apply valid_no_colon; exact V1|exact A1|exact A2]|].
  split; [change (s2b "05:FHELLO") with (s2b "05" ++ 58 :: s2b "FHELLO"); apply pm_both; [exact N5b|apply valid_no_colon; exact V2|exact B1|exact B2]|].
  split; [left; reflexivity|]. split; [exact V1|]. split; [exact V2|]. split; [right; split; assumption|]. split; [left; exact N5c|].
  split; [apply tg_plain; [apply valid_no_colon; exact V1|right; split; assumption]|].
  split; [change (s2b "5:ANYNAME") with (s2b "5" ++ 58 :: s2b "ANYNAME"); apply tg_compound; [apply (numeric_no_colon _ _ N5)|apply valid_no_colon, valid_check; reflexivity|exact N5|apply Hnn; vm_compute; reflexivity]|].
  split; [exact N5c|]. split; [exact N5|].
  intros i f Hi. unfold ex_table in *. rewrite three_len in Hi. unfold nm. rewrite three_nth by lia.
  destruct (i =? 0); [apply not_numeric; vm_compute; reflexivity|]. destruct (i =? 1); [apply not_numeric; vm_compute; reflexivity|]. destruct (i =? 2); apply not_numeric; vm_compute; reflexivity.
Qed.
Lemma loader_example : exists w c d,
  seen_as (s2b "x.do") (s2b "auto") c (s2b "nakedos") d (s2b "do") /\ names_on d ex_table /\ input w (s2b "x.do") c /\ target ex_table (s2b "FHELLO") 5 /\ binary (s2b "B") = true /\
  w_fs w (s2b "f") = NFile [0x20; 0x40; 0x03; 0x6D; 0x01; 0xDC; 0x2C; 5; 0xDF; 0x2C; 0; 0x2000 / 256; 0xD8; 0x4C; 0x2000 mod 256; 0x2000 / 256] true true.
Proof.
  destruct ex_table_ok as (T1 & _ & _ & T4). destruct (table_disk ex_table T1 T4) as (c & d & Hs & _ & Hn & _).
  exists (two_files (s2b "x.do") c (s2b "f") [0x20; 0x40; 0x03; 0x6D; 0x01; 0xDC; 0x2C; 5; 0xDF; 0x2C; 0; 0x20; 0xD8; 0x4C; 0; 0x20]), c, d.
  split; [exact Hs|]. split; [exact Hn|]. split; [right; split; [discriminate|]; exists true; reflexivity|].
  split; [|split; [vm_compute; reflexivity|reflexivity]].
  destruct (fhello_five (s2b "FHELLO") ltac:(vm_compute; reflexivity) ltac:(vm_compute; reflexivity)) as [B1 B2].
  apply tg_plain; [apply valid_no_colon, valid_check; reflexivity|right; split; assumption].
Qed.
(** The names of DOS 3.3 files are compared letter by letter. *)
Lemma dos_case iter w : ProdosSpec.an_order iter -> input w (s2b "x.dsk") Dos3StmtProofs.ex_dos_disk -> w_outroom w = None ->
  eventually (fun k => prints (DumpCmd_Run iter k (s2b "auto") (s2b "auto") (s2b "x.dsk") (s2b "HELLO")) w [1; 2; 3; 4; 5]) /\
  eventually (fun k => fails_cleanly (DumpCmd_Run iter k (s2b "auto") (s2b "auto") (s2b "x.dsk") (s2b "hello")) w).
Proof.
  intros Hi Hin Hw. destruct dump_example as (e & ls & data & H1 & H2 & H3).
  assert (Hb : bytes_ok Dos3StmtProofs.ex_dos_disk) by (pose proof ex_seen_dos as X; inversion X; assumption).
  split; [eapply (dump_dos iter); try eassumption; [exact ex_seen_dos|left; reflexivity|exact Dos3StmtProofs.ex_catalog]|].
  eapply (dump_dos_none iter); try eassumption; [exact ex_seen_dos|left; reflexivity|exact Dos3StmtProofs.ex_catalog|].
  intros x Hx _ (m & E & _).
  assert (F : forallb (fun x => negb (znth 0 (Dos3Spec.clear_high (sub x 3 33)) 0 =? 104)) (Dos3Spec.entries Dos3StmtProofs.ex_dos_disk [(17, 15); (17, 14)]) = true) by (vm_compute; reflexivity).
  rewrite forallb_forall in F. specialize (F x Hx). rewrite E in F. discriminate F.
Qed.
