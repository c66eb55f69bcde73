(** SdStmtProofs.v -- which binaries mksd accepts. *)
From Coq Require Import ZifyBool ZifyNat.
From Verif Require Import GoBase GoLemmas DiskModel DiskSpec CmdModel CmdSpec SdSpec SdProofs.
Ltac Zify.zify_post_hook ::= Z.div_mod_to_equations.
Local Opaque zrange zeros sub.

Lemma C75_refuted_lemma : exists c address start,
  sd_runnable c address start /\
  forall order name, order_flag order -> exists e, sd_image order name c address start = Err e.
Proof.
  exists (zeros 0x4000), 0x7000, 0x8800. split.
  { unfold sd_runnable. rewrite zlen_zeros by lia. lia. }
  intros order name Hf. destruct (sd_order_exists order name Hf) as [o Ho].
  destruct (C67_lemma order name (zeros 0x4000) 0x7000 0x8800 o Hf Ho) as (_ & H & _); [lia|lia|].
  apply H. unfold sd_accepts, sd_start. change (0x8800 =? 0xFFFF) with false. cbv iota.
  rewrite zlen_zeros by lia. lia.
Qed.

Lemma C75_partial_lemma : forall order name c address start0,
  order_flag order -> 0 <= address < 65536 -> 0 <= start0 < 65536 ->
  (sd_runnable c address (sd_start address start0) -> sd_start address start0 + zlen c <= 0xC000 ->
     sd_pages c <= 176 -> exists raw, sd_image order name c address start0 = Ok raw) /\
  (0x1000 <= address -> sd_runnable c address address ->
     exists raw, sd_image order name c address 0xFFFF = Ok raw) /\
  (forall raw, sd_image order name c address start0 = Ok raw -> sd_runnable c address (sd_start address start0)).
Proof.
  intros order name c address start0 Hf Ha Hs. destruct (sd_order_exists order name Hf) as [o Ho].
  split; [|split].
  - intros (H1 & H2 & H3) H4 H5. destruct (C67_lemma order name c address start0 o Hf Ho Ha Hs) as (H & _).
    apply H. unfold sd_accepts. lia.
  - intros H0 (H1 & H2 & H3). destruct (C67_lemma order name c address 0xFFFF o Hf Ho Ha ltac:(lia)) as (H & _).
    apply H. unfold sd_accepts, sd_start. change (0xFFFF =? 0xFFFF) with true. cbv iota. unfold sd_pages.
    pose proof (zlen_nonneg c). lia.
  - intros raw E. destruct (C67_lemma order name c address start0 o Hf Ho Ha Hs) as (H & _).
    destruct H as [H _]. destruct (H (ex_intro _ raw E)) as (G1 & G2 & G3 & G4). unfold sd_runnable. lia.
Qed.
