(** PropertiesTypes.v -- properties C61, C62, C73 (packages types and errors). *)
From Verif Require Import GoBase TypesModel TypesSpec ErrorsModel TypesProofs.

(** ** C61 *)
Theorem C61_filetype_names :
  (forall name t, FiletypeForName name = Ok t <->
     exists i, first_row (FiletypeInfos true) name i /\ fi_type i = t) /\
  (forall name, (exists e, FiletypeForName name = Err e) <->
     forall i, In i (FiletypeInfos true) -> ~ carries i name) /\
  (forall name, FiletypeForName name <> Panic) /\
  NoDup (map fi_name (FiletypeInfos true)) /\
  NoDup (map fi_type (FiletypeInfos true)) /\
  (forall i, In i (FiletypeInfos true) -> FiletypeForName (fi_name i) = Ok (fi_type i)) /\
  (forall b, 0 <= b < 256 -> ((exists i, In i (FiletypeInfos true) /\ fi_type i = b) <-> b <> 0xF9)) /\
  (forall i, In i (FiletypeInfos false) <-> In i (FiletypeInfos true) /\ fi_extra i = false).
Proof. exact C61_lemma. Qed.
Print Assumptions C61_filetype_names.
(** The empty name is a name of the first row without abbreviations. *)
Example C61_example :
  [FiletypeForName (s2b "TXT"); FiletypeForName (s2b "A"); FiletypeForName (s2b "SOSReservedBF"); FiletypeForName []]
  = [Ok 4; Ok 0xFC; Ok 0xBF; Ok 0] /\
  FiletypeForName (s2b "txt") = Err (EOther "unknown Filetype").
Proof. split; vm_compute; reflexivity. Qed.

(** ** C62 *)
Theorem C62_error_tags : forall e : goerr,
  (V_IsOutOfSpace e = true <-> exists s, e = V_OutOfSpacef s) /\
  (V_IsFileExists e = true <-> exists s, e = V_FileExistsf s) /\
  (V_IsFileNotFound e = true <-> exists s, e = V_FileNotFoundf s) /\
  (forall s, V_IsOutOfSpace (VWrap s e) = false /\ V_IsFileExists (VWrap s e) = false /\
     V_IsFileNotFound (VWrap s e) = false).
Proof. exact C62_lemma. Qed.
Print Assumptions C62_error_tags.
(** The predicates of the operator models agree with it. *)
Theorem C62_error_tags_model : forall g v, abstracts g v ->
  IsOutOfSpace g = V_IsOutOfSpace v /\ IsFileExists g = V_IsFileExists v /\ IsFileNotFound g = V_IsFileNotFound v.
Proof. exact C62_model_lemma. Qed.
Print Assumptions C62_error_tags_model.
Example C62_example : abstracts EFileExists (V_FileExistsf (s2b "file 5 already exists")) /\
  V_IsFileExists (V_FileExistsf (s2b "file 5 already exists")) = true /\
  V_IsFileExists (VWrap (s2b "put") (V_FileExistsf (s2b "file 5 already exists"))) = false.
Proof. split; [reflexivity|]. split; reflexivity. Qed.

(** ** C73 *)
Theorem C73_string_names : forall f info names str,
  filetypeInfosMap f = Some (info, names, str) ->
  fi_type info = f /\ Filetype_String f = Some (fi_desc info ++ s2b " (" ++ names ++ s2b ")") /\
  forall n, In n (words names) -> FiletypeForName n = Ok f.
Proof. exact C73_lemma. Qed.
Print Assumptions C73_string_names.
Example C73_example :
  Filetype_String 0xFC = Some (s2b "Applesoft BASIC program file (ApplesoftBASIC|BAS|A)") /\
  Filetype_String 0x101 = Some (s2b "DOS 3.3 Type ""new A"" (NewA)") /\ Filetype_String 0xF9 = None.
Proof. split; [|split]; vm_compute; reflexivity. Qed.

(** The full claim, that every name printed by `diskii filetypes` resolves to the type of its
    row, fails for the one-letter names of "new A" and "new B". *)
Theorem C73_table_names_refuted : exists i, In i (FiletypeInfos false) /\ fi_one i <> [] /\
  FiletypeForName (fi_one i) <> Ok (fi_type i).
Proof. exact C73_table_lemma. Qed.
Print Assumptions C73_table_names_refuted.
Theorem C73_table_names_partial : forall i, In i (FiletypeInfos true) ->
  (fi_three i <> [] -> FiletypeForName (fi_three i) = Ok (fi_type i)) /\
  (fi_one i <> [] -> FiletypeForName (fi_one i) = Ok (fi_type i) \/ fi_type i = 0x101 \/ fi_type i = 0x102).
Proof. exact C73_abbrev_lemma. Qed.
Print Assumptions C73_table_names_partial.
