(** HoldApartProofs.v -- disks that do not hold the same can be told apart. *)
From Coq Require Import ZifyBool ZifyNat.
From Verif Require Import GoBase GoLemmas TypesModel DiskModel DiskSpec DiskProofs.
From Verif Require Import SupermonModel SupermonSpec SupermonTableSpec SupermonStoreSpec SupermonProofs SupermonOpProofs SupermonNameProofs SupermonNamedProofs SupermonFinalProofs.
From Verif Require Import ProdosModel CmdModel CmdSpec CmdProofs CmdStmtProofs MainModel NakedCmdSpec NakedCmdProofs NakedOpenProofs SessionSpec ShelfSpec TwinSpec BackupSpec BackupProofs HoldSpec HoldProofs HoldCmdProofs.
Ltac Zify.zify_post_hook ::= Z.div_mod_to_equations.
Local Opaque zrange zeros sub.

Section One.
  Context (iter : list (Z * Subdirectory) -> list (Z * Subdirectory)) (fuel : nat) (order img o : bytes).
  Context (Himg : img <> s2b "-") (Hord : first_order img order o).

  Lemma opened w c q d : w_fs w img = NFile c true q -> naked_image c o d -> release_byte c <> 3 ->
    exists op, run (OpenFilename iter fuel img order (s2b "auto")) w = (w, Ok (ONaked op, o)) /\ op_ok op /\ op_data op = d /\ op_SM op = stored_map d.
  Proof.
    intros F N R. destruct (open_naked iter fuel c o d img order Hord N R) as (op & Eo & En).
    assert (Hi : input w img c) by (right; split; [exact Himg|exists q; exact F]).
    destruct (open_run_ok iter fuel _ _ _ _ _ _ _ Hi Eo) as (w1 & Er & _ & _ & _ & _ & W1). rewrite (W1 Himg) in Er.
    destruct (NewOperator_ok d op (fl_len _ _ (proj2 N)) En) as (Hok & Ed & Em & _). exists op. auto.
  Qed.
  Lemma dump_tells w c q d f : w_fs w img = NFile c true q -> naked_image c o d -> release_byte c <> 3 -> w_outroom w = None -> legal f ->
    exists v, main_run (DumpCmd_Run iter fuel order (s2b "auto") img (printed f)) w = (v, if beq (file_on d f) [] then 1 else 0) /\ w_stdout v = w_stdout w ++ file_on d f.
  Proof.
    intros F N R Ho Hf. destruct (opened w c q d F N R) as (op & E & Hok & Ed & Em). unfold main_run, DumpCmd_Run. rewrite run_pbind, E, run_pbind. unfold plift. cbn [run Op_GetFile].
    unfold GetFile. assert (FileForName (st_of op) (printed f) = Ok f) as -> by (apply FileForName_resolves; left; apply printed_numeric; exact Hf). cbn [rbind].
    rewrite ReadFile_spec by exact (fl_len _ _ (ok_fl _ Hok)). rewrite Ed, Em. fold (file_on d f).
    destruct (file_on d f) as [|x l] eqn:Ef.
    - exists w. rewrite app_nil_r. split; reflexivity.
    - assert (zlen (x :: l) =? 0 = false) as -> by (rewrite zlen_cons; pose proof (zlen_nonneg l); lia). cbn [run beq fi_data]. unfold sys_stdout. rewrite Ho. cbn [fits run]. eexists. split; reflexivity.
  Qed.
  Lemma put_tells w c d src data q : w_fs w img = NFile c true true -> naked_image c o d -> release_byte c <> 3 -> w_room w = None ->
    src <> s2b "-" -> w_fs w src = NFile data true q -> data <> [] ->
    exists v, main_run (PutCmd_Run iter fuel order (s2b "auto") (s2b "B") true 0 img (printed 1) src) w = (v, if free_on d + sectors_on d 1 <? nsec data then 1 else 0) /\ w_stdout v = w_stdout w.
  Proof.
    intros F N R Hr Hs Fs Hne. destruct (opened w c true d F N R) as (op & E & Hok & Ed & Em).
    unfold main_run, PutCmd_Run. change dash with (s2b "-"). rewrite (beq_false _ _ Himg). cbn [andb]. rewrite run_pbind, E, run_pbind.
    unfold FileContentsOrStdIn. change dash with (s2b "-"). rewrite (beq_false _ _ Hs). cbn [run]. rewrite Fs. cbn [sys_read]. rewrite run_pbind. unfold plift at 1. cbn [run].
    assert (FiletypeForName (s2b "B") = Ok FiletypeBinary) as -> by (vm_compute; reflexivity). cbv zeta. cbn [Op_PutFile].
    assert (Hl : legal 1) by (unfold legal; lia).
    rewrite (PutFile_numeric _ true op 1 Hok) by (reflexivity || exact Hne || exact (printed_numeric 1 Hl)). cbn [fi_data]. unfold on_disk.
    pose proof Hok as [Hfl Hst]. unfold free_on, sectors_on. rewrite <- Em.
    destruct (WriteFile_cases 1 data true (op_data op) (op_SM op) Hfl Hl Hne) as [(H & EW)|[(_ & _ & H & _)|(H & _ & e & em & EW & G & _)]]; [|discriminate H|]; rewrite EW; cbn [lift_op].
    - rewrite run_pbind. unfold plift. cbn [run]. exists w. split; [|reflexivity]. replace (_ <? nsec data) with true by lia. reflexivity.
    - rewrite run_pbind. unfold plift. cbn [run]. replace (_ <? nsec data) with false by lia.
      destruct (writeback_run c o d (Op e em (op_ST op)) img (proj1 N) (fl_len _ _ G)) as (n & _ & Rn). rewrite Rn.
      unfold WriteOutput. change dash with (s2b "-"). rewrite (beq_false _ _ Himg). cbn [run]. unfold sys_write. rewrite F. cbn [can_write]. rewrite Hr. cbn [fits run]. eexists. split; reflexivity.
  Qed.
End One.

(** ** Telling disks apart *)
Lemma contents_decided d d' : same_contents d d' \/ exists f, legal f /\ file_on d' f <> file_on d f.
Proof.
  destruct (existsb (fun f => (1 <=? f) && (f <=? 253) && negb (beq (file_on d' f) (file_on d f))) (zrange 256)) eqn:E.
  - right. apply existsb_exists in E. destruct E as (f & _ & H). apply andb_prop in H. destruct H as [H1 H2]. exists f. split; [unfold legal; lia|]. apply beq_neq. destruct (beq (file_on d' f) (file_on d f)); [discriminate H2|reflexivity].
  - left. intros f Hf. destruct (beq (file_on d' f) (file_on d f)) eqn:B; [apply beq_eq; exact B|]. exfalso.
    assert (X : existsb (fun f => (1 <=? f) && (f <=? 253) && negb (beq (file_on d' f) (file_on d f))) (zrange 256) = true).
    { apply existsb_exists. exists f. unfold legal in Hf. split; [apply In_zrange; lia|]. rewrite B. lia. }
    rewrite X in E. discriminate E.
Qed.
Lemma apart : forall (iter : list (Z * Subdirectory) -> list (Z * Subdirectory)) fuel order img o w w' c c' d d' file,
  img <> s2b "-" -> first_order img order o -> beside img w w' -> w_outroom w = None ->
  w_fs w img = NFile c true true -> w_fs w' img = NFile c' true true -> naked_image c o d -> naked_image c' o d' -> release_byte c <> 3 -> release_byte c' <> 3 ->
  file <> img -> file <> s2b "-" -> w_fs w file = NMissing \/ (exists x, x <> [] /\ w_fs w file = NFile x true true) ->
  same_holding c c' o d d' \/ exists h, Forall (work_of order img) h /\ no_empty_source h w /\
     snd (session (map (deed_command iter fuel) h) w) <> snd (session (map (deed_command iter fuel) h) w').
Proof.
  intros iter fuel order img o w w' c c' d d' file Hi Ho HB Hout F F' N N' R R' Hf1 Hf2 Hfile0.
  assert (Hfile : w_fs w file = NMissing \/ (exists x, w_fs w file = NFile x true true)) by (destruct Hfile0 as [X|(x & _ & X)]; [left; exact X|right; exists x; exact X]).
  pose proof HB as [B1 B2 [B3 B3'] B4]. assert (Hout' : w_outroom w' = None) by congruence.
  destruct (contents_decided d d') as [HC|(f & Hf & HC)].
  2:{ right. exists [On order img (ADump (printed f))]. split; [apply Forall_cons; [apply wo_dump|apply Forall_nil]|]. split; [intros a b c0 d0 e0 f0 g0 h0 i0 j0 [X|[]]; discriminate X|].
    cbn [map session deed_command command]. intros HA.
    destruct (dump_tells iter fuel order img o Hi Ho (quiet w) c true d f F N R Hout Hf) as (v & E & S). destruct (dump_tells iter fuel order img o Hi Ho (quiet w') c' true d' f F' N' R' Hout' Hf) as (v' & E' & S').
    rewrite E, E' in HA. cbn [snd] in HA. rewrite S, S' in HA. cbn [quiet w_stdout app] in HA. injection HA as _ X. apply HC. symmetry. exact X. }
  pose proof (same_used d d' (proj2 N) (proj2 N') HC 1 ltac:(unfold legal; lia)) as HU.
  destruct (Z.eq_dec (free_on d') (free_on d)) as [E|NE]; [left; split; [exact N|exact N'|exact HC|exact E]|right].
  remember (Z.max (free_on d) (free_on d') + sectors_on d 1) as k eqn:Ek.
  assert (0 <= free_on d /\ 0 <= free_on d' /\ 0 <= sectors_on d 1) as (P1 & P2 & P3) by (unfold free_on, sectors_on; repeat split; apply zlen_nonneg).
  remember (zeros (256 * k)) as data eqn:Edata.
  assert (Hlen : zlen data = 256 * k) by (rewrite Edata; apply zlen_zeros; lia).
  assert (Hne : data <> []) by (intros X; rewrite X, zlen_nil in Hlen; lia).
  assert (Hns : nsec data = k) by (unfold nsec; rewrite Hlen; lia).
  remember [Save file data; On order img (APut (s2b "B") true 0 (printed 1) file)] as h eqn:Eh.
  assert (HW : Forall (work_of order img) h).
  { rewrite Eh. apply Forall_cons; [apply wo_edit, eo_save; assumption|]. apply Forall_cons; [apply wo_edit, eo_put; assumption|apply Forall_nil]. }
  assert (HS : forall u cu du, w_fs u img = NFile cu true true -> naked_image cu o du -> release_byte cu <> 3 -> w_room u = None ->
    w_fs u file = NMissing \/ (exists x, w_fs u file = NFile x true true) ->
    snd (session (map (deed_command iter fuel) h) u) = [(0, []); (if free_on du + sectors_on du 1 <? k then 1 else 0, [])]).
  { intros u cu du G1 G2 G3 G4 G5. rewrite Eh. cbn [map session deed_command command]. unfold main_run at 1. cbn [run]. unfold sys_write. cbn [quiet w_fs w_room]. rewrite G4. cbn [fits].
    assert (can_write (w_fs u file) = true /\ written (w_fs u file) data = NFile data true true) as [-> ->] by (destruct G5 as [->|[x ->]]; split; reflexivity).
    remember (set_fs (quiet u) file (NFile data true true)) as u1 eqn:Eu1.
    assert (U1 : w_fs u1 img = NFile cu true true) by (rewrite Eu1; cbn [set_fs w_fs quiet]; rewrite (beq_false _ _ (not_eq_sym Hf1)); exact G1).
    assert (U2 : w_fs u1 file = NFile data true true) by (rewrite Eu1; cbn [set_fs w_fs quiet]; rewrite beq_refl; reflexivity).
    assert (U3 : w_room u1 = None) by (rewrite Eu1; exact G4). assert (U4 : w_stdout u1 = []) by (rewrite Eu1; reflexivity). clear Eu1.
    destruct (put_tells iter fuel order img o Hi Ho (quiet u1) cu du file data true U1 G2 G3 U3 Hf2 U2 Hne) as (v & E & S).
    cbn [main_status]. rewrite E. cbn [snd]. rewrite S, U4, Hns. reflexivity. }
  assert (Hfile' : w_fs w' file = NMissing \/ (exists x, w_fs w' file = NFile x true true)) by (rewrite (B1 file Hf1); exact Hfile).
  pose proof (HS w c d F N R B3 Hfile) as S1. pose proof (HS w' c' d' F' N' R' B3' Hfile') as S2.
  exists h. split; [exact HW|]. split.
  { rewrite Eh. intros o1 i1 f1 ow1 a1 n1 s1 x1 r1 q1 [X|[X|[]]] G; [discriminate X|]. injection X as _ _ _ _ _ _ <-.
    destruct Hfile0 as [Y|(x & Hx & Y)]; rewrite Y in G; [discriminate G|]. injection G as <- _ _. exact Hx. }
  intros HE.
  rewrite S1, S2 in HE. rewrite HU in HE. apply (f_equal (fun l => nth 1 (map fst l) 7)) in HE. cbn [map nth fst] in HE.
  destruct (free_on d + sectors_on d 1 <? k) eqn:X1; destruct (free_on d' + sectors_on d 1 <? k) eqn:X2; lia.
Qed.
