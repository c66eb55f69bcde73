(** BasicStmtProofs.v -- examples and refutations for PropertiesBasic. *)
From Verif Require Import GoBase GoLemmas CodecLemmas DiskSpec BasicModel BasicSpec BasicProofs.
From Verif Require Dos3Spec Dos3StmtProofs.
From Coq Require Import ZifyBool ZifyNat.

(** ** An Applesoft program of 2057 bytes: 10 REM, then PRINT lines. *)
Definition ex_big : list Line :=
  mkLine 10 [0xB2] :: map (fun i => mkLine (20 + 10 * i) (0xBA :: repeat 65 244)) (zrange 8) ++ [mkLine 100 (0xBA :: repeat 66 43)].
Definition line_okb (l : Line) : bool := (0 <=? l_Num l) && (l_Num l <? 65536) && forallb (fun c => (0 <? c) && (c <=? 0xEA)) (l_Bytes l).
Lemma line_okb_ok ls : forallb line_okb ls = true -> Forall line_ok ls.
Proof.
  intros H. apply Forall_forall. intros l Hl. rewrite forallb_forall in H. specialize (H l Hl). unfold line_okb in H. apply andb_prop in H. destruct H as [H1 H2]. split; [unfold is_u16; lia|].
  apply Forall_forall. intros c Hc. rewrite forallb_forall in H2. specialize (H2 c Hc). unfold applesoft_byte. lia.
Qed.
Lemma C55_refuted_lemma : exists ls, Forall line_ok ls /\ ls <> [] /\ 0x801 + zlen (program 0x801 ls) <= 65536 /\
  exists e, returns (fun k => applesoft_Decode k (program 0x801 ls) 0x801) (fun r => r = Err e).
Proof.
  exists ex_big. split; [apply line_okb_ok; vm_compute; reflexivity|]. split; [discriminate|]. split; [vm_compute; discriminate|].
  eexists. exists 2%nat. eexists. split; [reflexivity|]. intros k Hk. apply (Decode_mono _ _ 2); [vm_compute; reflexivity | exact Hk].
Qed.
Definition ex_small : list Line := [mkLine 10 [0xBA; 34; 72; 73; 34]; mkLine 20 [0xAB; 49; 48]].
Lemma ex_small_ok : Forall line_ok ex_small /\ ~ has_header (program 0x801 ex_small).
Proof. split; [apply line_okb_ok; reflexivity|]. intros [_ H]. vm_compute in H. destruct H as [H|H]; discriminate H. Qed.

(** ** Applesoft: a crash and an endless loop *)
Definition ex_before : bytes := [0x00; 0x08; 10; 0; 0x80; 0].
Definition ex_loop : bytes := [0x01; 0x08; 10; 0; 0x80; 0].
Lemma C56_panic_lemma : returns (fun k => applesoft_Decode k ex_before 0x801) (fun r => r = Panic).
Proof. exists 2%nat, Panic. split; [reflexivity|]. intros k Hk. apply (Decode_mono _ _ 2); [vm_compute; reflexivity | exact Hk]. Qed.
Lemma C56_loop_lemma : diverges (fun k => applesoft_Decode k ex_loop 0x801).
Proof.
  assert (bytes_ok ex_loop) as B by (apply Dos3StmtProofs.bytes_ok_forallb; vm_compute; reflexivity).
  assert (body ex_loop ex_loop) as Hb by (right; split; [intros [_ H]; vm_compute in H; destruct H as [H|H]; discriminate H | reflexivity]).
  apply (C56_four_outcomes ex_loop ex_loop 0x801 B ltac:(unfold is_u16; lia) Hb).
  exists [], 0x801, [mkLine 10 [0x80]]. split; [constructor|]. split; [discriminate|]. econstructor; [discriminate | | constructor].
  split; [lia|]. split; [vm_compute; discriminate|]. split; [reflexivity|]. split; [discriminate|]. split; [reflexivity|]. split; [reflexivity|]. split; [reflexivity|].
  constructor; [unfold applesoft_byte; lia | constructor].
Qed.

(** ** An Integer BASIC program of 263 bytes: 1 NEW, then PRINT lines. *)
Definition ex_ibig : list Line := [mkLine 1 [0x0B]; mkLine 2 (0x61 :: repeat 0xC1 124); mkLine 3 (0x61 :: repeat 0xC2 124)].
Definition iline_okb (l : Line) : bool := (0 <=? l_Num l) && (l_Num l <? 65536) && forallb (fun x => (0 <=? x) && (x <? 256)) (l_Bytes l) && (zlen (l_Bytes l) + 4 <=? 255).
Lemma iline_okb_ok ls : forallb iline_okb ls = true -> Forall iline_ok ls.
Proof.
  intros H. apply Forall_forall. intros l Hl. rewrite forallb_forall in H. specialize (H l Hl). unfold iline_okb in H. apply andb_prop in H. destruct H as [H H3]. apply andb_prop in H. destruct H as [H1 H2].
  split; [unfold is_u16; lia|]. split; [apply Dos3StmtProofs.bytes_ok_forallb; exact H2 | lia].
Qed.
Lemma idecode_mono f k r : integer_Decode k f = Some r -> forall k', (k <= k')%nat -> integer_Decode k' f = Some r.
Proof. unfold integer_Decode. apply integerLines_mono. Qed.
Lemma C57_refuted_lemma : exists ls, Forall iline_ok ls /\ ls <> [] /\ returns (fun k => integer_Decode k (iprogram ls)) (fun r => r = Panic).
Proof.
  exists ex_ibig. split; [apply iline_okb_ok; vm_compute; reflexivity|]. split; [discriminate|]. exists 1%nat, Panic. split; [reflexivity|]. intros k Hk. apply (idecode_mono _ 1); [vm_compute; reflexivity | exact Hk].
Qed.
Definition ex_ismall : list Line := [mkLine 10 [0x61; 0xC8; 0x03; 0xB5; 5; 0]; mkLine 20 [0x5F; 0xB1; 10; 0]].
Lemma ex_ismall_ok : Forall iline_ok ex_ismall /\ ~ has_header (iprogram ex_ismall).
Proof. split; [apply iline_okb_ok; reflexivity|]. intros [_ H]. vm_compute in H. destruct H as [H|H]; discriminate H. Qed.
Lemma C58_refuted_lemma : returns (fun k => integer_Decode k [0; 10; 0; 1]) (fun r => r = Panic) /\ returns (fun k => integer_Decode k [3; 10; 1; 1]) (fun r => r = Panic).
Proof.
  split; (exists 1%nat, Panic; split; [reflexivity|]; intros k Hk; apply (idecode_mono _ 1); [vm_compute; reflexivity | exact Hk]).
Qed.
(** 10 PRINT A1:5 : REM HI *)
Definition ex_items : list item := [Token 0x61; Char 65; Char 49; Token 0x03; Number 53 5; Token 0x03].
Definition ex_iline : Line := mkLine 10 (concat (map item_bytes ex_items) ++ remark_bytes (Some (s2b "HI"))).
Lemma ex_items_ok : items_ok false ex_items /\ remark_ok (Some (s2b "HI")).
Proof.
  split; [|repeat constructor; lia]. apply io_token; [lia | lia|]. apply io_char with (b' := true); [lia | unfold digit; lia | unfold alnum; split; [lia | reflexivity]|].
  apply io_name; [unfold alnum; lia|]. apply io_token; [lia | lia|]. apply io_number; [unfold digit; lia | unfold is_u16; lia|]. apply io_token; [lia | lia | constructor].
Qed.
Lemma ex_iline_text : integer_line ex_iline = s2b "   10 PRINT A1:5:REM HI".
Proof. vm_compute. reflexivity. Qed.
Lemma C58_terminates f : bytes_ok f -> returns (fun k => integer_Decode k f) (fun _ => True).
Proof.
  intros B. destruct (C58_three_outcomes f _ B (dropHeader_body f)) as (r & R & _). exists (S (length f)), r. split; [exact I|]. intros k Hk. apply R. lia.
Qed.
Lemma C58_outcomes f p : bytes_ok f -> body f p -> exists r, returns (fun k => integer_Decode k f) (fun r' => r' = r) /\
  (r = Panic <-> exists ls t, p = iprogram ls ++ t /\ Forall iline_ok ls /\ stuck t) /\
  (forall ls, r = Ok ls <-> exists t, p = iprogram ls ++ t /\ Forall iline_ok ls /\ zlen t <= 3).
Proof.
  intros B Hb. destruct (C58_three_outcomes f p B Hb) as (r & R & H). exists r. split; [|exact H]. exists (S (length f)), r. split; [reflexivity|]. intros k Hk. apply R. lia.
Qed.
Lemma C60_lemma s : bytes_ok s -> escaped s (ChevronControlCodes s) /\ Forall (fun c => ~ control c) (ChevronControlCodes s) /\ ChevronControlCodes (ChevronControlCodes s) = ChevronControlCodes s.
Proof. intros B. split; [apply C60_escaped; exact B|]. split; [apply C60_no_controls; exact B | apply C60_idempotent; exact B]. Qed.
