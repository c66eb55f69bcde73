(** SpellProofs.v -- proofs for C116: the ways to write the name of a file on a NakedOS disk. *)
From Coq Require Import ZifyBool ZifyNat.
From Verif Require Import GoBase GoLemmas TypesModel DiskModel DiskSpec DiskProofs DiskOpenProofs.
From Verif Require Import SupermonModel SupermonSpec SupermonTableSpec SupermonStoreSpec SupermonProofs SupermonSymProofs SupermonTabProofs SupermonLinkProofs SupermonNameProofs
  SupermonOpProofs SupermonNamedProofs SupermonFinalProofs SupermonStmtProofs.
From Verif Require ProdosSpec Dos3Spec Dos3StmtProofs.
From Verif Require Import ProdosModel CmdModel CmdSpec CmdProofs CmdStmtProofs MainModel NakedCmdSpec NakedCmdProofs NakedOpenProofs NakedNameProofs NakedExProofs DetectSpec DetectProofs PrintProofs ListSpec.
Ltac Zify.zify_post_hook ::= Z.div_mod_to_equations.
Local Opaque zrange zeros sub.

(** ** Letters of either case *)
Definition upc (c : Z) : Z := if (97 <=? c) && (c <=? 122) then c - 32 else c.
Notation alike := (Forall2 (fun c c' : Z => upc c = upc c')).
Lemma alike_iff n n' : upcase n = upcase n' <-> alike n n'.
Proof.
  split.
  - revert n'. induction n as [|c n IH]; intros [|c' n'] E; try discriminate E; [constructor|]. cbn [upcase map] in E. injection E as E1 E2. constructor; [exact E1|apply IH; exact E2].
  - induction 1 as [|c c' n n' H _ IH]; [reflexivity|]. cbn [upcase map]. unfold upcase in IH. rewrite IH. unfold upc in H. rewrite H. reflexivity.
Qed.
Lemma upc_same c c' : upc c = upc c' -> (forall k, 123 <= k \/ k < 65 -> (c =? k) = (c' =? k)) /\ low c = low c' /\ up c = up c' /\ hexval c = hexval c'.
Proof.
  intros H. unfold upc in H.
  assert (Hc : c = c' \/ (97 <= c <= 122 /\ c' = c - 32) \/ (97 <= c' <= 122 /\ c = c' - 32)).
  { destruct ((97 <=? c) && (c <=? 122)) eqn:A; destruct ((97 <=? c') && (c' <=? 122)) eqn:B; lia. }
  unfold low, up, hexval, is_upper, is_lower, is_digit. split; [intros k Hk; lia|].
  destruct Hc as [->|[[H1 ->]|[H1 ->]]]; [repeat split| |].
  - replace ((65 <=? c) && (c <=? 90)) with false by lia. replace ((97 <=? c) && (c <=? 122)) with true by lia.
    replace ((65 <=? c - 32) && (c - 32 <=? 90)) with true by lia. replace ((97 <=? c - 32) && (c - 32 <=? 122)) with false by lia.
    replace ((48 <=? c) && (c <=? 57)) with false by lia. replace ((48 <=? c - 32) && (c - 32 <=? 57)) with false by lia.
    replace ((97 <=? c - 32) && (c - 32 <=? 102)) with false by lia. replace ((65 <=? c) && (c <=? 70)) with false by lia.
    split; [lia|]. split; [reflexivity|]. destruct ((97 <=? c) && (c <=? 102)) eqn:A.
    + replace ((65 <=? c - 32) && (c - 32 <=? 70)) with true by lia. f_equal. lia.
    + replace ((65 <=? c - 32) && (c - 32 <=? 70)) with false by lia. reflexivity.
  - replace ((65 <=? c') && (c' <=? 90)) with false by lia. replace ((97 <=? c') && (c' <=? 122)) with true by lia.
    replace ((65 <=? c' - 32) && (c' - 32 <=? 90)) with true by lia. replace ((97 <=? c' - 32) && (c' - 32 <=? 122)) with false by lia.
    replace ((48 <=? c') && (c' <=? 57)) with false by lia. replace ((48 <=? c' - 32) && (c' - 32 <=? 57)) with false by lia.
    replace ((97 <=? c' - 32) && (c' - 32 <=? 102)) with false by lia. replace ((65 <=? c') && (c' <=? 70)) with false by lia.
    split; [lia|]. split; [reflexivity|]. destruct ((97 <=? c') && (c' <=? 102)) eqn:A.
    + replace ((65 <=? c' - 32) && (c' - 32 <=? 70)) with true by lia. f_equal. lia.
    + replace ((65 <=? c' - 32) && (c' - 32 <=? 70)) with false by lia. reflexivity.
Qed.
Lemma upc_is c c' k : upc c = upc c' -> 123 <= k \/ k < 65 -> (c =? k) = (c' =? k).
Proof. intros H Hk. apply (proj1 (upc_same c c' H) k Hk). Qed.
Lemma upc_low c c' : upc c = upc c' -> low c = low c'.
Proof. intros H. apply (upc_same c c' H). Qed.
Lemma upc_up c c' : upc c = upc c' -> up c = up c'.
Proof. intros H. apply (upc_same c c' H). Qed.
Lemma alike_fold : forall k n n', (length n <= k)%nat -> alike n n' -> fold_case n = fold_case n'.
Proof.
  induction k as [|k IH]; intros n n' Hk H; [destruct n; [inversion H; reflexivity|cbn [length] in Hk; lia]|].
  destruct H as [|a a' n n' Ha H]; [reflexivity|]. destruct H as [|b b' n n' Hb H]; [cbn [fold_case]; rewrite (upc_low _ _ Ha); reflexivity|].
  destruct H as [|e e' n n' He H].
  - cbn [fold_case]. rewrite (upc_is _ _ 197 Ha) by lia. rewrite (upc_is _ _ 191 Hb) by lia. rewrite (upc_low _ _ Ha), (upc_low _ _ Hb). reflexivity.
  - cbn [length] in Hk. assert (E1 : fold_case (e :: n) = fold_case (e' :: n')) by (apply IH; [cbn [length]; lia|constructor; assumption]).
    assert (E2 : fold_case (b :: e :: n) = fold_case (b' :: e' :: n')) by (apply IH; [cbn [length]; lia|repeat constructor; assumption]).
    assert (E3 : fold_case n = fold_case n') by (apply IH; [lia|assumption]).
    change (fold_case (a :: b :: e :: n)) with (if (a =? 197) && (b =? 191) then 115 :: fold_case (e :: n) else if (a =? 226) && (b =? 132) && (e =? 170) then 107 :: fold_case n else low a :: fold_case (b :: e :: n)).
    change (fold_case (a' :: b' :: e' :: n')) with (if (a' =? 197) && (b' =? 191) then 115 :: fold_case (e' :: n') else if (a' =? 226) && (b' =? 132) && (e' =? 170) then 107 :: fold_case n' else low a' :: fold_case (b' :: e' :: n')).
    rewrite E1, E2, E3, (upc_low _ _ Ha). rewrite (upc_is _ _ 197 Ha), (upc_is _ _ 191 Hb), (upc_is _ _ 226 Ha), (upc_is _ _ 132 Hb), (upc_is _ _ 170 He) by lia. reflexivity.
Qed.
Lemma alike_upper : forall k n n', (length n <= k)%nat -> alike n n' -> to_upper n = to_upper n'.
Proof.
  induction k as [|k IH]; intros n n' Hk H; [destruct n; [inversion H; reflexivity|cbn [length] in Hk; lia]|].
  destruct H as [|a a' n n' Ha H]; [reflexivity|]. destruct H as [|b b' n n' Hb H]; [cbn [to_upper]; rewrite (upc_up _ _ Ha); reflexivity|].
  cbn [length] in Hk. assert (E1 : to_upper (b :: n) = to_upper (b' :: n')) by (apply IH; [cbn [length]; lia|constructor; assumption]).
  assert (E2 : to_upper n = to_upper n') by (apply IH; [lia|assumption]).
  change (to_upper (a :: b :: n)) with (if (a =? 196) && (b =? 177) then 73 :: to_upper n else if (a =? 197) && (b =? 191) then 83 :: to_upper n else up a :: to_upper (b :: n)).
  change (to_upper (a' :: b' :: n')) with (if (a' =? 196) && (b' =? 177) then 73 :: to_upper n' else if (a' =? 197) && (b' =? 191) then 83 :: to_upper n' else up a' :: to_upper (b' :: n')).
  rewrite E1, E2, (upc_up _ _ Ha). rewrite (upc_is _ _ 196 Ha), (upc_is _ _ 177 Hb), (upc_is _ _ 197 Ha), (upc_is _ _ 191 Hb) by lia. reflexivity.
Qed.
Lemma alike_hex n n' acc : alike n n' -> parse_hex_acc n acc = parse_hex_acc n' acc.
Proof.
  intros H. revert acc. induction H as [|c c' n n' Hc _ IH]; intros acc; [reflexivity|]. cbn [parse_hex_acc].
  destruct (upc_same c c' Hc) as (_ & _ & _ & ->). destruct (hexval c'); [apply IH|reflexivity].
Qed.
Lemma alike_len (n n' : bytes) : alike n n' -> zlen n = zlen n'.
Proof. induction 1; [reflexivity|]. rewrite !zlen_cons. lia. Qed.
Lemma alike_nil (n n' : bytes) : alike n n' -> beq n [] = beq n' [].
Proof. intros [|? ? ? ? ? ?]; reflexivity. Qed.
Lemma alike_rev (n n' : bytes) : alike n n' -> alike (rev n) (rev n').
Proof. induction 1; [constructor|]. cbn [rev]. apply Forall2_app; [assumption|constructor; [assumption|constructor]]. Qed.
Lemma alike_split n n' a a' : alike n n' -> alike a a' -> Forall2 alike (split_colon_aux n a) (split_colon_aux n' a').
Proof.
  intros H. revert a a'. induction H as [|c c' n n' Hc _ IH]; intros a a' Ha; cbn [split_colon_aux].
  - constructor; [apply alike_rev; exact Ha|constructor].
  - rewrite (upc_is _ _ 58 Hc) by lia. destruct (c' =? 58).
    + constructor; [apply alike_rev; exact Ha|]. apply IH. constructor.
    + apply IH. constructor; assumption.
Qed.
Lemma alike_equal n n' x : alike n n' -> equal_fold n x = equal_fold n' x /\ equal_fold x n = equal_fold x n'.
Proof. intros H. unfold equal_fold. rewrite (alike_fold _ n n' (le_n _) H). split; reflexivity. Qed.
Lemma alike_encode n n' : alike n n' -> encodeSymbol n = encodeSymbol n'.
Proof. intros H. unfold encodeSymbol. rewrite (alike_nil _ _ H), (alike_len _ _ H), (alike_upper _ n n' (le_n _) H). reflexivity. Qed.
Lemma alike_address n n' : alike n n' -> parseAddressFilename n = parseAddressFilename n'.
Proof.
  intros H. unfold parseAddressFilename. assert (parse_uint16_hex n = parse_uint16_hex n') as ->; [|reflexivity].
  unfold parse_uint16_hex. rewrite (alike_hex n n' 0 H). destruct H; reflexivity.
Qed.
Lemma alike_file t n n' : alike n n' -> FileForName t n = FileForName t n'.
Proof.
  intros H. unfold FileForName. rewrite (alike_address _ _ H). assert (FileForName_loop t n = FileForName_loop t n') as ->; [|reflexivity].
  induction t as [|s t IH]; [reflexivity|]. cbn [FileForName_loop]. rewrite (proj2 (alike_equal n n' (s_name s) H)), IH. reflexivity.
Qed.
Lemma alike_files t n n' : alike n n' ->
  match FilesForCompoundName t n, FilesForCompoundName t n' with
  | Ok (a, b, q), Ok (a', b', q') => a = a' /\ b = b' /\ alike q q'
  | Err e, Err e' => e = e'
  | Panic, Panic => True
  | _, _ => False
  end.
Proof.
  intros H. unfold FilesForCompoundName. pose proof (alike_split n n' [] [] H ltac:(constructor)) as Hs. unfold split_colon.
  destruct Hs as [|p p' l l' Hp Hs]; [reflexivity|]. destruct Hs as [|r r' l l' Hr Hs].
  - rewrite (alike_address _ _ H), (alike_file t _ _ H). destruct (negb _); [split; [reflexivity|]; split; [reflexivity|constructor]|].
    destruct (FileForName t n'); [| |exact I]; (split; [reflexivity|]; split; [reflexivity|exact H]).
  - destruct Hs as [|x x' l l' Hx Hs]; [|reflexivity]. rewrite (alike_address _ _ Hp), (alike_address _ _ Hr), (alike_file t _ _ Hr).
    destruct (_ =? 0); [reflexivity|]. destruct (negb _); [reflexivity|]. destruct (FileForName t r'); [| |exact I]; (split; [reflexivity|]; split; [reflexivity|exact Hr]).
Qed.

(** ** Tables that differ in the case of letters only *)
Definition twin (s s' : Symbol) : Prop := s_addr s = s_addr s' /\ s_link s = s_link s' /\ alike (s_name s) (s_name s').
Lemma alike_refl (n : bytes) : alike n n.
Proof. induction n; constructor; [reflexivity|assumption]. Qed.
Lemma twin_refl (t : list Symbol) : Forall2 twin t t.
Proof. induction t as [|s t IH]; constructor; [|exact IH]. split; [reflexivity|]. split; [reflexivity|apply alike_refl]. Qed.
Lemma twin_fill t t' i a b : Forall2 twin t t' -> fill_tables t i a b = fill_tables t' i a b.
Proof.
  intros H. revert i a b. induction H as [|s s' t t' (H1 & H2 & H3) _ IH]; intros i a b; [reflexivity|]. cbn [fill_tables].
  rewrite H1, H2, (alike_encode _ _ H3). destruct (encodeSymbol (s_name s')) as [six| |]; cbn [rbind]; [|reflexivity|reflexivity]. destruct (4096 <? _); [reflexivity|]. apply IH.
Qed.
Lemma twin_write t t' s : Forall2 twin t t' -> WriteSymbolTable t s = WriteSymbolTable t' s.
Proof. intros H. unfold WriteSymbolTable. rewrite (twin_fill _ _ _ _ _ H). reflexivity. Qed.
Lemma twin_zset (l : list Symbol) i x x' : twin x x' -> Forall2 twin (zset l i x) (zset l i x').
Proof.
  intros H. unfold zset, upd. apply Forall2_app; [apply twin_refl|]. apply Forall2_app; [constructor; [exact H|constructor]|]. apply twin_refl.
Qed.
Lemma alike_find t n n' i : alike n n' -> find_name t n i = find_name t n' i.
Proof. intros H. revert i. induction t as [|s t IH]; intros i; [reflexivity|]. cbn [find_name]. rewrite (proj1 (alike_equal n n' (s_name s) H)), IH. reflexivity. Qed.
Lemma alike_delete t n n' : alike n n' -> DeleteSymbol t n = DeleteSymbol t n'.
Proof. intros H. unfold DeleteSymbol. rewrite (alike_find t n n' 0 H). reflexivity. Qed.
Lemma alike_scan t j p n n' h : alike n n' -> add_scan t j p n h = add_scan t j p n' h.
Proof. intros H. revert j p. induction t as [|s t IH]; intros j p; [reflexivity|]. cbn [add_scan]. rewrite (proj1 (alike_equal n n' (s_name s) H)), IH. reflexivity. Qed.
Lemma alike_add t n n' a : alike n n' -> Forall2 twin (fst (AddSymbol t n a)) (fst (AddSymbol t n' a)) /\ snd (AddSymbol t n a) = snd (AddSymbol t n' a).
Proof.
  intros H. unfold AddSymbol. destruct (a =? 0); [split; [apply twin_refl|reflexivity]|]. cbv zeta. rewrite (alike_scan t 0 (-1) n n' _ H), (alike_delete t n n' H).
  assert (Ht : twin (Sym a n (-1)) (Sym a n' (-1))) by (split; [reflexivity|]; split; [reflexivity|exact H]).
  destruct (add_scan _ _ _ _ _) as [j|j|j]; [split; [apply twin_refl|reflexivity]| |]; unfold add_at; (destruct (j =? -1); [split; [apply twin_refl|reflexivity]|]); cbn [fst snd];
    (split; [apply twin_zset; exact Ht|reflexivity]).
Qed.

(** ** The operator *)
(** The same bytes, whatever the table in memory. *)
Definition same_disk (x y : Operator * res bool) : Prop := op_data (fst x) = op_data (fst y) /\ snd x = snd y.
Lemma alike_delete_op n n' o : alike n n' -> Delete n o = Delete n' o.
Proof. intros H. unfold Delete. rewrite (alike_file _ _ _ H). destruct (FileForName _ _); [|reflexivity|reflexivity]. destruct (Persist _ _) as [d1 [[]| |]]; [|reflexivity|reflexivity].
  destruct (op_ST o) as [t|]; [|reflexivity]. rewrite (alike_delete t n n' H). reflexivity.
Qed.
Lemma alike_put fd n n' f b c e g h dt a ow o : alike n n' ->
  same_disk (PutFile (FI (Desc n fd f b c e g) dt a) ow o) (PutFile (FI (Desc n' fd f b c e g) dt h) ow o).
Proof.
  intros H. unfold PutFile. cbn [fi_desc_ fi_data d_type d_length d_name]. destruct (negb _); [split; reflexivity|]. destruct (negb _); [split; reflexivity|].
  pose proof (alike_files (st_of o) n n' H) as HF.
  destruct (FilesForCompoundName (st_of o) n) as [[[nf mf] q]|e1|]; destruct (FilesForCompoundName (st_of o) n') as [[[nf' mf'] q']|e1'|];
    try (exfalso; exact HF); [|subst e1'; split; reflexivity|split; reflexivity].
  destruct HF as (<- & <- & Hq). cbv zeta. rewrite (alike_nil _ _ Hq), (alike_encode _ _ Hq).
  destruct (if beq q' [] then _ else _) as [[]|e1|]; [|split; reflexivity|split; reflexivity].
  remember (if nf =? 0 then _ else nf) as num eqn:En. clear En. destruct (num =? 0); [split; reflexivity|].
  unfold sbind at 1 3. destruct (on_disk _ o) as [o1 [x|e1|]]; [|split; reflexivity|split; reflexivity].
  destruct (negb (mf =? num) && negb (beq q' [])); [|split; reflexivity].
  destruct (alike_add (st_of o1) q q' (u16 (57088 + num)) Hq) as [A1 A2].
  destruct (AddSymbol (st_of o1) q _) as [t1 r1]; destruct (AddSymbol (st_of o1) q' _) as [t1' r1']. cbn [fst snd] in A1, A2. subst r1'.
  destruct r1 as [[]|e1|]; [|split; reflexivity|split; reflexivity].
  unfold sbind, on_disk. cbn [op_data op_SM op_ST]. rewrite (twin_write _ _ _ A1). destruct (WriteSymbolTable t1' _) as [[d2 sm2] [[]| |]]; split; reflexivity.
Qed.

(** ** The commands *)
Section Commands.
  Context (iter : list (Z * Subdirectory) -> list (Z * Subdirectory)) (fuel : nat).
  Lemma finish_same img x y o w : same_disk x y ->
    run (let '(op, r) := lift_op ONaked x in _ <<- plift r ;; WriteBack img op o true) w = run (let '(op, r) := lift_op ONaked y in _ <<- plift r ;; WriteBack img op o true) w.
  Proof.
    destruct x as [x r]; destruct y as [y r']. intros [E1 E2]. cbn [fst snd] in E1, E2. subst r'. cbn [lift_op]. rewrite !run_pbind. unfold plift. destruct r; cbn [run]; [|reflexivity|reflexivity].
    unfold WriteBack. cbn [Op_GetBytes Op_DiskOrder]. rewrite E1. reflexivity.
  Qed.
  Lemma put_alike order system ft ow addr img n n' src w : upcase n = upcase n' ->
    run (PutCmd_Run iter fuel order system ft ow addr img n src) w = run (PutCmd_Run iter fuel order system ft ow addr img n' src) w.
  Proof.
    intros H. apply alike_iff in H. unfold PutCmd_Run. destruct (_ && _); [reflexivity|]. rewrite !run_pbind.
    destruct (run (OpenFilename iter fuel img order system) w) as [w1 [[op o]| |]]; [|reflexivity|reflexivity]. rewrite !run_pbind.
    destruct (run (FileContentsOrStdIn src) w1) as [w2 [s| |]]; [|reflexivity|reflexivity]. rewrite !run_pbind. unfold plift at 1 3.
    destruct (FiletypeForName ft) as [ftv| |]; cbn [run]; [|reflexivity|reflexivity].
    destruct op as [d|op|d]; cbn [Op_PutFile]; [reflexivity| |reflexivity]. apply finish_same. apply alike_put. exact H.
  Qed.
  Lemma rm_alike order system force img n n' w : upcase n = upcase n' ->
    run (DeleteCmd_Run iter fuel order system force img n) w = run (DeleteCmd_Run iter fuel order system force img n') w.
  Proof.
    intros H. apply alike_iff in H. unfold DeleteCmd_Run. rewrite !run_pbind.
    destruct (run (OpenFilename iter fuel img order system) w) as [w1 [[op o]| |]]; [|reflexivity|reflexivity].
    destruct op as [d|op|d]; cbn [Op_Delete]; [reflexivity| |reflexivity]. rewrite (alike_delete_op n n' op H). reflexivity.
  Qed.
  Lemma mkhello_alike order img n n' a st0 w : upcase n = upcase n' ->
    run (MkHelloCmd_Run iter fuel order img n a st0) w = run (MkHelloCmd_Run iter fuel order img n' a st0) w.
  Proof.
    intros H. apply alike_iff in H. unfold MkHelloCmd_Run. cbv zeta. destruct (negb _); [reflexivity|]. destruct (_ <? _); [reflexivity|]. rewrite !run_pbind.
    destruct (run (OpenFilename iter fuel img order _) w) as [w1 [[op o]| |]]; [|reflexivity|reflexivity].
    destruct op as [d|op|d]; [reflexivity| |reflexivity]. rewrite !run_pbind. unfold plift at 1 3. pose proof (alike_files (st_of op) n n' H) as HF.
    destruct (FilesForCompoundName (st_of op) n) as [[[nf mf] q]|e1|]; destruct (FilesForCompoundName (st_of op) n') as [[[nf' mf'] q']|e1'|];
      try (exfalso; exact HF); [|subst e1'; reflexivity|reflexivity]. destruct HF as (<- & <- & _). reflexivity.
  Qed.
  Lemma edits_alike n n' w : upcase n = upcase n' ->
    (forall order system ft ow addr img src, main_run (PutCmd_Run iter fuel order system ft ow addr img n src) w = main_run (PutCmd_Run iter fuel order system ft ow addr img n' src) w) /\
    (forall order system force img, main_run (DeleteCmd_Run iter fuel order system force img n) w = main_run (DeleteCmd_Run iter fuel order system force img n') w) /\
    (forall order img a s, main_run (MkHelloCmd_Run iter fuel order img n a s) w = main_run (MkHelloCmd_Run iter fuel order img n' a s) w).
  Proof.
    intros H. unfold main_run. split; [|split]; intros; [rewrite (put_alike _ _ _ _ _ _ n n') by exact H|rewrite (rm_alike _ _ _ _ n n') by exact H|rewrite (mkhello_alike _ _ n n') by exact H]; reflexivity.
  Qed.
End Commands.
