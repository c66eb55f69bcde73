(** HoldCopyProofs.v -- a disk copied file by file holds the same. *)
From Coq Require Import ZifyBool ZifyNat.
From Verif Require Import GoBase GoLemmas DiskSpec SupermonModel SupermonSpec SupermonTableSpec ProdosModel CmdModel CmdSpec MainModel NakedCmdSpec NakedExProofs SessionSpec SupermonFinalProofs ShelfSpec TwinSpec BackupSpec BackupProofs BackupExProofs HoldSpec HoldCmdProofs.
Ltac Zify.zify_post_hook ::= Z.div_mod_to_equations.
Local Opaque zrange zeros sub.

Lemma copied_holds : forall (iter : list (Z * Subdirectory) -> list (Z * Subdirectory)) fuel order img o ow addr c0 d l w c e,
  img <> s2b "-" -> first_order img order o -> naked_image c0 o d ->
  w_fs w img = NFile c true true -> naked_image c o e -> w_room w = None -> w_outroom w = None ->
  (forall f, legal f -> file_on e f = []) -> free_on e = total d l + free_on d ->
  Forall (good_item img w) l -> NoDup (map it_file l) ->
  (forall f, legal f -> (file_on d f <> [] <-> exists i, In i l /\ it_file i = f)) ->
  throughout (unmarked img) (map (command iter fuel order img) (restore ow addr d l)) w ->
  exists v c1 e1, session (map (command iter fuel order img) (restore ow addr d l)) w = (v, map (fun _ => (0, [])) (restore ow addr d l)) /\
    w_fs v img = NFile c1 true true /\ same_holding c0 c1 o d e1 /\
    forall h u, Forall (work_of order img) h -> beside img u v -> w_fs u img = NFile c0 true true -> no_empty_source h u ->
      throughout (unmarked img) (map (deed_command iter fuel) h) u -> throughout (unmarked img) (map (deed_command iter fuel) h) v ->
      snd (session (map (deed_command iter fuel) h) v) = snd (session (map (deed_command iter fuel) h) u).
Proof.
  intros iter fuel order img o ow addr c0 d l w c e Hi Ho N0 F N Hr Hor He Hfree HG HD HA HT.
  assert (HL : forall i, In i l -> legal (it_file i)) by (intros i Hl; rewrite Forall_forall in HG; exact (proj1 (gi_name _ _ _ (HG i Hl)))).
  assert (Hin : forall i, In i l -> file_on d (it_file i) <> [] /\ file_on e (it_file i) = []).
  { intros i Hl. split; [|apply He, HL, Hl]. apply (HA _ (HL i Hl)). exists i. split; [exact Hl|reflexivity]. }
  assert (0 <= free_on d) by (unfold free_on; apply zlen_nonneg).
  assert (Hfit : total d l <= free_on e) by lia.
  destruct (restore_lemma iter fuel order img o ow addr d l w c e Hi Ho (fl_len _ _ (proj2 N0)) F N Hr Hor HG HD Hin Hfit HT) as (v & c1 & e1 & S & F1 & N1 & R1 & R2 & R3 & _).
  assert (HS : same_holding c0 c1 o d e1).
  { split; [exact N0|exact N1| |lia]. intros f Hf. destruct (file_on d f) as [|x r] eqn:E.
    - rewrite R2; [apply He; exact Hf|exact Hf|]. intros i Hl X. apply (proj1 (Hin i Hl)). rewrite X. exact E.
    - destruct (proj1 (HA f Hf)) as (i & Hl & Ei); [rewrite E; discriminate|]. rewrite <- E, <- Ei. apply R1. exact Hl. }
  exists v, c1, e1. split; [exact S|]. split; [exact F1|]. split; [exact HS|].
  intros h u Hh HB Fu NE U V.
  destruct (place_session iter fuel order img o h u v c0 c1 true d e1 Hi Ho Hh HB Fu F1 HS NE U V) as (v1 & v1' & l1 & _ & _ & _ & _ & _ & E & E' & _).
  rewrite E, E'. reflexivity.
Qed.

(** The two disks of the example of C124 are such disks. *)
Lemma two_free : zlen (owned two_map FREE) = 546.
Proof. vm_compute. reflexivity. Qed.
Lemma two_room : free_on (map_disk ex_map) = total two_disk two_items + free_on two_disk.
Proof. unfold free_on at 2. rewrite two_total, blank_free, two_stored, two_free. reflexivity. Qed.
