(** HelloProofs.v -- proofs for property C120: what the loader of mkhello does. *)
From Coq Require Import ZifyBool ZifyNat.
From Verif Require Import GoBase GoLemmas TypesModel DiskModel DiskSpec DiskProofs.
From Verif Require Import SupermonModel SupermonSpec SupermonTableSpec SupermonProofs ProdosModel CmdModel CmdSpec NakedCmdSpec NakedSeenProofs BootSpec HelloSpec.
Ltac Zify.zify_post_hook ::= Z.div_mod_to_equations.
Local Opaque zrange zeros sub.

Section Loader.
  Context (d c : bytes) (f address start l : Z).
  Hypothesis Hfile : file_on d f = c.
  Hypothesis Hc : c <> [].
  Hypothesis Hf : legal f.
  Hypothesis Ha : 0x400 <= address.
  Hypothesis Hpage : address mod 256 = 0.
  Hypothesis Hend : address + zlen c <= 0xC000.
  Hypothesis Hstart : 0 <= start < 65536.
  Hypothesis Hl : 0x400 <= l.
  Hypothesis Hl2 : l + 16 <= 0xC000.
  Hypothesis Hout : l + 16 <= address \/ address + zlen c <= l.
  Definition code : bytes := [0x20; 0x40; 0x03; 0x6D; 0x01; 0xDC; 0x2C; f; 0xDF; 0x2C; 0; address / 256; 0xD8; 0x4C; start mod 256; start / 256].
  Definition has_code (m : memory) : Prop := forall i, 0 <= i < 16 -> m (l + i) = znth 0 code i.

  Lemma at_jmp s : rPC s = l + 13 -> has_code (mem s) -> (forall i, 0 <= i < zlen c -> mem s (address + i) = znth 0 c i) -> comes_to d (runs c address start) s.
  Proof.
    intros Hpc Hm Hld. pose proof (Hm 13 ltac:(lia)) as M13. pose proof (Hm 14 ltac:(lia)) as M14. pose proof (Hm 15 ltac:(lia)) as M15.
    change (znth 0 code 13) with 0x4C in M13. change (znth 0 code 14) with (start mod 256) in M14. change (znth 0 code 15) with (start / 256) in M15.
    assert (E : execute (mem s (rPC s)) (mem s (rPC s + 1)) (mem s (rPC s + 2)) s = Some (jump s start)).
    { rewrite Hpc. replace (l + 13 + 1) with (l + 14) by lia. replace (l + 13 + 2) with (l + 15) by lia. rewrite M13, M14, M15. cbn [execute]. unfold word. do 2 f_equal. lia. }
    apply ct_step.
    - exists (jump s start). apply ns_cpu; [unfold ram; lia|lia|lia|exact E].
    - intros s' H. apply ct_here. inversion H as [s2 H1 H2 H3 H4 E1|H1 H2 H3 E1|f' p r s2 H1]; [|rewrite Hpc, M13 in H3; discriminate H3|lia].
      rewrite E in H4. injection H4 as <-. split; [reflexivity|exact Hld].
  Qed.
  Lemma at_cld s : rPC s = l + 12 -> has_code (mem s) -> (forall i, 0 <= i < zlen c -> mem s (address + i) = znth 0 c i) -> comes_to d (runs c address start) s.
  Proof.
    intros Hpc Hm Hld. pose proof (Hm 12 ltac:(lia)) as M12. change (znth 0 code 12) with 0xD8 in M12.
    assert (N : comes_to d (runs c address start) (jump s (rPC s + 1))) by (apply at_jmp; [cbn [jump rPC]; lia|exact Hm|exact Hld]).
    apply ct_step.
    - exists (jump s (rPC s + 1)). apply ns_cld; [unfold ram; lia|lia|rewrite Hpc; exact M12].
    - intros s' H. inversion H as [s2 H1 H2 H3 H4 E1|H1 H2 H3 E1|f' p r s2 H1]; [|exact N|lia].
      rewrite Hpc, M12 in H4. discriminate H4.
  Qed.
  Lemma at_call s : rPC s = 0x340 -> rPC (return_ s) = l + 3 -> has_code (mem s) -> comes_to d (runs c address start) s.
  Proof.
    intros Hpc Hr Hm.
    assert (M : forall i v, 0 <= i < 16 -> znth 0 code i = v -> mem s (l + i) = v) by (intros i v Hi <-; apply Hm; exact Hi).
    assert (Hz : 0 <= zlen c) by apply zlen_nonneg.
    apply ct_step.
    - exists (Mach 0 0 0 (rS (return_ s)) false false (l + 12) (fun x => if (address <=? x) && (x <? address + zlen c) then znth 0 c (x - address) else mem s x) (head s) (mags s)).
      apply (ns_read d s f (address / 256) (l + 3)); rewrite ?Hfile; cbn [rPC mem rS]; try (symmetry; exact Hr); try assumption; try lia; try reflexivity;
        try (rewrite <- Z.add_assoc; apply M; [lia|reflexivity]).
      + apply M; [lia|reflexivity].
      + intros i Hi. replace (256 * (address / 256) + i) with (address + i) by lia. replace ((address <=? address + i) && (address + i <? address + zlen c)) with true by lia.
        f_equal. lia.
      + intros x Hx Hn. replace ((address <=? x) && (x <? address + zlen c)) with false by lia. reflexivity.
    - intros s' H. inversion H as [s2 H1 H2 H3 H4 E1|H1 H2 H3 E1|f' p r s2 H1 H2 H3 H4 I0 I1 I2 I3 I4 I5 I6 I7 I8 Lf Lne Lp Le HL HO HP HS E1]; [lia|lia|]. subst s2.
      rewrite Hr in H2. subst r.
      assert (f' = f) as -> by (rewrite <- I4; rewrite <- Z.add_assoc; apply M; [lia|reflexivity]).
      assert (p = address / 256) as -> by (rewrite <- I8; rewrite <- Z.add_assoc; apply M; [lia|reflexivity]).
      rewrite Hfile in *. replace (256 * (address / 256)) with address in * by lia.
      apply at_cld; [lia| |exact HL]. intros i Hi. rewrite HO by lia. apply Hm. exact Hi.
  Qed.
  Lemma at_start s : rPC s = l -> 0 <= rS s < 256 -> has_code (mem s) -> comes_to d (runs c address start) s.
  Proof.
    intros Hpc HS Hm.
    pose proof (Hm 0 ltac:(lia)) as M0. pose proof (Hm 1 ltac:(lia)) as M1. pose proof (Hm 2 ltac:(lia)) as M2.
    change (znth 0 code 0) with 0x20 in M0. change (znth 0 code 1) with 0x40 in M1. change (znth 0 code 2) with 0x03 in M2. rewrite Z.add_0_r in M0.
    remember (jump (push (push s ((l + 2) / 256)) ((l + 2) mod 256)) 0x340) as s1 eqn:Es1.
    assert (E : execute (mem s (rPC s)) (mem s (rPC s + 1)) (mem s (rPC s + 2)) s = Some s1).
    { rewrite Hpc, M0, M1, M2. cbn [execute]. rewrite Hpc, Es1. reflexivity. }
    assert (N : comes_to d (runs c address start) s1).
    { apply at_call; rewrite Es1.
      - reflexivity.
      - unfold return_, jump, push. cbn [rPC rS mem]. unfold mset, word.
        replace (256 + (((rS s - 1) mod 256 - 1) mod 256 + 1) mod 256 =? 256 + (rS s - 1) mod 256) with true by lia.
        replace (256 + (((rS s - 1) mod 256 - 1) mod 256 + 2) mod 256 =? 256 + (rS s - 1) mod 256) with false by lia.
        replace (256 + (((rS s - 1) mod 256 - 1) mod 256 + 2) mod 256 =? 256 + rS s) with true by lia. lia.
      - intros i Hi. unfold jump, push. cbn [rPC rS mem]. unfold mset.
        replace (l + i =? 256 + (rS s - 1) mod 256) with false by lia. replace (l + i =? 256 + rS s) with false by lia. apply Hm. exact Hi. }
    apply ct_step.
    - exists s1. apply ns_cpu; [unfold ram; lia|lia|lia|exact E].
    - intros s' H. inversion H as [s2 H1 H2 H3 H4 E1|H1 H2 H3 E1|f' p r s2 H1]; [|rewrite Hpc, M0 in H3; discriminate H3|lia].
      rewrite E in H4. injection H4 as <-. exact N.
  Qed.
End Loader.

Lemma hello_starts : forall (iter : list (Z * Subdirectory) -> list (Z * Subdirectory)) fuel order img name address start0 w w',
  run (MkHelloCmd_Run iter fuel order img name address start0) w = (w', Ok tt) ->
  0 <= address < 65536 -> 0 <= start0 < 65536 ->
  let start := if start0 =? 0xFFFF then address else start0 in
  exists c o d t d' new f,
    input w img c /\ naked_image c o d /\ names_on d t /\ target t name f /\ output w w' img new /\ naked_image new o d' /\
    (f <> 1 -> f <> 3 -> f <> 4 -> file_on d f <> [] -> 0x400 <= address -> address + zlen (file_on d f) <= 0xC000 ->
     starts_into d' (file_on d f) address start).
Proof.
  intros iter fuel order img name address start0 w w' HR Ha H0 start.
  destruct (mkhello_run_seen iter fuel order img name address start0 w w' HR Ha H0) as (Hp & Hs & c & o & d & t & d' & new & f & G1 & G2 & _ & _ & G5 & G6 & G7 & G8 & G9 & G10 & G11).
  fold start in Hs, G10.
  exists c, o, d, t, d', new, f. split; [exact G1|]. split; [exact G2|]. split; [exact G5|]. split; [exact G6|]. split; [exact G8|]. split; [exact G9|].
  intros N1 N3 N4 Hne Ha4 Hend l s Hl Hl2 Hout Hpc HS Hm.
  assert (Hst : 0 <= start < 65536) by (unfold start; clear - Ha H0; destruct (start0 =? 65535); assumption).
  apply (at_start d' (file_on d f) f address start l); try assumption; [exact (G11 f G7 N1 N3 N4)|].
  intros i Hi. rewrite (Hm i Hi), G10. unfold code. rewrite znth_app by lia.
  assert (i <? zlen [32; 64; 3; 109; 1; 220; 44; f; 223; 44; 0; address / 256; 216; 76; start mod 256; start / 256] = true) as -> by (unfold zlen; cbn [length]; lia). reflexivity.
Qed.
