(** NakedSeenProofs.v -- put, rm and mkhello change the disk that the image is seen as. *)
From Coq Require Import ZifyBool ZifyNat.
From Verif Require Import GoBase TypesModel DiskSpec SupermonModel SupermonSpec SupermonTableSpec ProdosModel CmdModel CmdSpec NakedCmdSpec
  NakedCmdProofs DetectSpec ListSpec OpenFuelProofs.
From Verif Require ProdosSpec.

Lemma mkhello_run_seen : forall (iter : list (Z * Subdirectory) -> list (Z * Subdirectory)) fuel order img name address start0 w w',
  run (MkHelloCmd_Run iter fuel order img name address start0) w = (w', Ok tt) ->
  0 <= address < 65536 -> 0 <= start0 < 65536 ->
  let start := if start0 =? 0xFFFF then address else start0 in
  address mod 256 = 0 /\ address <= start /\
  exists c o d t d' new f,
    input w img c /\ naked_image c o d /\ opened_order img order o /\
    (ProdosSpec.an_order iter -> only_seen img order (s2b "auto") c o d) /\ names_on d t /\ target t name f /\ legal f /\
    output w w' img new /\ naked_image new o d' /\
    file_on d' 1 = [0x20; 0x40; 0x03; 0x6D; 0x01; 0xDC; 0x2C; f; 0xDF; 0x2C; 0; address / 256; 0xD8; 0x4C;
                    start mod 256; start / 256] ++ zeros 240 /\
    (forall g, legal g -> g <> 1 -> g <> 3 -> g <> 4 -> file_on d' g = file_on d g).
Proof.
  intros iter fuel order img name address start0 w w' H Ha Hs start.
  destruct (mkhello_run_open iter fuel _ _ _ _ _ _ _ H Ha Hs) as (H1 & H2 & c & o & d & t & d' & new & f & op & Ho & Ed & Hc & Hoo & Hn & Hx).
  split; [exact H1|]. split; [exact H2|]. exists c, o, d, t, d', new, f. split; [exact Hc|]. split; [exact Hn|]. split; [exact Hoo|].
  split; [rewrite <- Ed; apply (opened_seen iter fuel); exact Ho|]. exact Hx.
Qed.
Lemma put_run_seen : forall (iter : list (Z * Subdirectory) -> list (Z * Subdirectory)) fuel order system ft ow addr img tgt src w w' s,
  run (PutCmd_Run iter fuel order system ft ow addr img tgt src) w = (w', Ok tt) ->
  input w src s -> s <> [] ->
  exists c o d t d' new f,
    input w img c /\ naked_image c o d /\ opened_order img order o /\
    (ProdosSpec.an_order iter -> only_seen img order system c o d) /\ names_on d t /\ output w w' img new /\ naked_image new o d' /\
    FiletypeForName ft = Ok FiletypeBinary /\ legal f /\
    (target t tgt f \/ (no_colon tgt /\ (forall g, ~ resolves t tgt g) /\ file_on d f = [])) /\
    (file_on d f <> [] -> ow = true) /\
    (f <> 3 -> f <> 4 -> file_on d' f = padded s) /\
    (forall g, legal g -> g <> f -> g <> 3 -> g <> 4 -> file_on d' g = file_on d g) /\
    (no_colon tgt -> resolves t tgt f -> file_on d' f = padded s /\ forall g, legal g -> g <> f -> file_on d' g = file_on d g).
Proof.
  intros iter fuel order system ft ow addr img tgt src w w' s H Hs Hne.
  destruct (put_run_open iter fuel _ _ _ _ _ _ _ _ _ _ _ H Hs Hne) as (c & o & d & t & d' & new & f & op & Ho & Ed & Hc & Hoo & Hn & Hx).
  exists c, o, d, t, d', new, f. split; [exact Hc|]. split; [exact Hn|]. split; [exact Hoo|].
  split; [rewrite <- Ed; apply (opened_seen iter fuel); exact Ho|]. exact Hx.
Qed.
Lemma rm_run_seen : forall (iter : list (Z * Subdirectory) -> list (Z * Subdirectory)) fuel order system missingOk img name w w',
  run (DeleteCmd_Run iter fuel order system missingOk img name) w = (w', Ok tt) ->
  exists c o d t d' new f,
    input w img c /\ naked_image c o d /\ opened_order img order o /\
    (ProdosSpec.an_order iter -> only_seen img order system c o d) /\ names_on d t /\ output w w' img new /\ naked_image new o d' /\
    legal f /\ resolves t name f /\ (missingOk = false -> file_on d f <> []) /\
    (f <> 3 -> f <> 4 -> file_on d' f = []) /\
    (forall g, legal g -> g <> f -> g <> 3 -> g <> 4 -> file_on d' g = file_on d g).
Proof.
  intros iter fuel order system missingOk img name w w' H.
  destruct (rm_run_open iter fuel _ _ _ _ _ _ _ H) as (c & o & d & t & d' & new & f & op & Ho & Ed & Hc & Hoo & Hn & Hx).
  exists c, o, d, t, d', new, f. split; [exact Hc|]. split; [exact Hn|]. split; [exact Hoo|].
  split; [rewrite <- Ed; apply (opened_seen iter fuel); exact Ho|]. exact Hx.
Qed.
