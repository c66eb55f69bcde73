(** PropertiesMain.v -- properties C85-C87: address arguments, the table of file types, and
    output that could not be written.
    Vocabulary: MainSpec. *)
From Verif Require Import GoBase TypesModel TypesProofs CmdModel ProdosModel DetectSpec MainModel MainSpec MainProofs FiletypesProofs.
From Verif Require ProdosSpec.

(** ** C85 *)
Theorem C85_address_arguments : forall s,
  (forall n, hexUint16Mapper_Decode s = Ok n <-> literal s n /\ n <= 65535) /\
  ((forall n, literal s n -> 65535 < n) -> exists e, hexUint16Mapper_Decode s = Err e).
Proof. exact C85_lemma. Qed.
Print Assumptions C85_address_arguments.
Example C85_example :
  map hexUint16Mapper_Decode [s2b "0x801"; s2b "0XBf_ff"; s2b "24576"; s2b "0b1_0"; s2b "017"; s2b "0"]
  = [Ok 0x801; Ok 0xBFFF; Ok 0x6000; Ok 2; Ok 15; Ok 0] /\
  Forall (fun s => exists e, hexUint16Mapper_Decode s = Err e)
    [s2b ""; s2b "$801"; s2b "801h"; s2b "BFFF"; s2b "0801"; s2b "-1"; s2b "65536"; s2b "0x"; s2b "1__0"; s2b "18446744073709551616"].
Proof. exact (conj eq_refl ex_refused). Qed.

(** ** C86 *)
(** Each column is one blank wider than its widest cell. *)
Theorem C86_filetypes_table : forall (all : bool) w, w_outroom w = None ->
  exists ws ts infos, length ws = 3%nat /\
    (forall j, (j < 3)%nat -> exists r, In r (header :: dashes :: map shown_row infos) /\ nth j ws 0 = zlen (nth j r []) + 1) /\
    Forall2 (row_in ws) (header :: dashes :: map shown_row infos) ts /\
    prints (FiletypesCmd_Run all) w (concat ts) /\
    (exists keep, infos = filter keep filetypeInfos) /\ NoDup (map fi_type infos) /\
    (forall i, In i infos <-> In i filetypeInfos /\ (all = true \/ fi_extra i = false)) /\
    (forall n t, FiletypeForName n = Ok t -> exists i, In i filetypeInfos /\ fi_type i = t /\ In n (tl (shown_row i))).
Proof. exact C86_tight. Qed.
Print Assumptions C86_filetypes_table.
Example C86_example : tab_text [[s2b "Description"; s2b "Name"; s2b "3"; s2b "1"]; [s2b "Text"; s2b "ASCIIText"; []; s2b "T"]]
  = s2b "Description Name      3 1" ++ [10] ++ s2b "Text        ASCIIText   T" ++ [10].
Proof. vm_compute. reflexivity. Qed.

(** Without --all: the types with an abbreviation, typeless files and bad blocks. *)
Theorem C86_short_list : forall i, In i (FiletypeInfos false) <->
  In i (FiletypeInfos true) /\ (fi_three i <> [] \/ fi_one i <> [] \/ fi_type i = 0 \/ fi_type i = 1).
Proof. exact short_list_lemma. Qed.
Print Assumptions C86_short_list.

(** ** C87 *)
(** The claim is that every command that reports success has written all its output.  ls, decode
    and filetypes ignore errors. *)
Theorem C87_output_errors_refuted :
  (forall iter : list (Z * Subdirectory) -> list (Z * Subdirectory), ProdosSpec.an_order iter ->
     eventually (fun fuel => ~ honest (LsCmd_Run iter fuel (s2b "auto") (s2b "auto") false (s2b "x.dsk") []))) /\
  ~ honest (DecodeCmd_Run 5 (s2b "p") 0x801 false) /\
  (forall all, ~ honest (FiletypesCmd_Run all)).
Proof. exact (conj C87_ls (conj C87_decode C87_ft)). Qed.
Print Assumptions C87_output_errors_refuted.
(** All other commands. *)
Theorem C87_output_errors_partial : forall (iter : list (Z * Subdirectory) -> list (Z * Subdirectory)) fuel order system img name,
  (forall force, honest (DeleteCmd_Run iter fuel order system force img name)) /\
  (forall ft ow addr src, honest (PutCmd_Run iter fuel order system ft ow addr img name src)) /\
  (forall newOrder ow new, honest (ReorderCmd_Run order newOrder ow img new)) /\
  (forall binary addr start, honest (SDCmd_Run order img binary addr start)) /\
  (forall addr start, honest (MkHelloCmd_Run iter fuel order img name addr start)) /\
  honest (DumpCmd_Run iter fuel order system img name).
Proof. exact C87_lemma. Qed.
Print Assumptions C87_output_errors_partial.
