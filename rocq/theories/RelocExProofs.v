(** RelocExProofs.v -- a DOS 3.3 disk and the same with files and catalog moved. *)
From Coq Require Import ZifyBool ZifyNat.
From Verif Require Import GoBase GoLemmas TypesModel DiskModel DiskSpec DiskProofs DiskOpenProofs Dos3Model Dos3Spec Dos3CodecProofs Dos3Proofs Dos3StmtProofs.
From Verif Require Import ProdosModel CmdModel CmdSpec CmdProofs MainModel NakedCmdSpec DetectSpec DetectProofs RelocSpec.
Ltac Zify.zify_post_hook ::= Z.div_mod_to_equations.
Local Opaque zrange zeros sub.

(** A check that two lists of entries match. *)
Definition fuel0 : nat := S list_limit.
Definition match_bool (d d' e e' : bytes) : bool :=
  beq (sub e 2 35) (sub e' 2 35) &&
  match Contents fuel0 (fd_of e) d, Contents fuel0 (fd_of e') d' with
  | Some (Ok (x, k)), Some (Ok (x', k')) => beq x x' && (k =? k')
  | _, _ => false
  end.
Fixpoint match_all (d d' : bytes) (es es' : list bytes) : bool :=
  match es, es' with
  | [], [] => true
  | e :: es, e' :: es' => match_bool d d' e e' && match_all d d' es es'
  | _, _ => false
  end.
Lemma contents_body d e x k : bytes_ok d -> bytes_ok e -> Contents fuel0 (fd_of e) d = Some (Ok (x, k)) ->
  exists l, body d (znth 0 e 0, znth 0 e 1) l x /\ k = 31232 * zlen l.
Proof.
  intros B Be E. assert (is_byte (znth 0 e 0) /\ is_byte (znth 0 e 1)) as [b0 b1] by (split; apply bytes_ok_znth; exact Be).
  destruct (body_dec d (znth 0 e 0, znth 0 e 1) B (conj b0 b1)) as [(ls & data & Hb & Hl)|N].
  - rewrite (Contents_body d (fd_of e) ls data fuel0 B b0 b1 Hb) in E by (unfold fuel0; lia). injection E as <- <-. exists ls. split; [exact Hb|reflexivity].
  - destruct (Contents_no_body d (fd_of e) fuel0 B b0 b1 N) as [er X]; [unfold fuel0; lia|]. rewrite X in E. discriminate E.
Qed.
Lemma match_ok d d' e e' : bytes_ok d -> bytes_ok d' -> bytes_ok e -> bytes_ok e' -> match_bool d d' e e' = true ->
  same_entry e e' /\ same_file d (znth 0 e 0, znth 0 e 1) d' (znth 0 e' 0, znth 0 e' 1).
Proof.
  intros B B' Be Be' M. unfold match_bool in M. apply andb_prop in M as [M1 M2]. split; [apply beq_eq; exact M1|].
  destruct (Contents fuel0 (fd_of e) d) as [[[x k]|er|]|] eqn:E1; try discriminate M2.
  destruct (Contents fuel0 (fd_of e') d') as [[[x' k']|er'|]|] eqn:E2; try discriminate M2.
  apply andb_prop in M2 as [M2 M3]. apply beq_eq in M2. subst x'.
  destruct (contents_body d e x k B Be E1) as (l & Hb & Hk). destruct (contents_body d' e' x k' B' Be' E2) as (l' & Hb' & Hk').
  assert (zlen l = zlen l') as El by lia. intros n data. split; intros (m & X & Y).
  - destruct (body_unique _ _ _ _ _ _ X Hb) as [-> ->]. exists l'. split; [exact Hb'|lia].
  - destruct (body_unique _ _ _ _ _ _ X Hb') as [-> ->]. exists l. split; [exact Hb|lia].
Qed.
Lemma match_files d d' l l' : bytes_ok d -> bytes_ok d' -> catalog d l -> catalog d' l' ->
  match_all d d' (filter is_live (entries d l)) (filter is_live (entries d' l')) = true -> same_dos_files d l d' l'.
Proof.
  intros B B' C C'. unfold same_dos_files.
  pose proof (forall_sub _ is_live _ (entries_bytes d l B (catalog_places d l B C))) as FE.
  pose proof (forall_sub _ is_live _ (entries_bytes d' l' B' (catalog_places d' l' B' C'))) as FE'.
  revert FE'. generalize (filter is_live (entries d' l')) as es'. induction FE as [|e es [_ Be] FE IH]; intros es' FE' M; destruct es' as [|e' es']; try discriminate M; [constructor|].
  cbn [match_all] in M. apply andb_prop in M as [M1 M2]. inversion FE' as [|? ? [_ Be'] FE2]; subst. constructor; [apply match_ok; assumption|apply IH; assumption].
Qed.

(** The files of [ex_dos_disk] elsewhere: the catalog is in 17/15 and 17/3, in 17/15 the deleted entry is gone,
    HELLO is on track 20, the lists of NOTES are on track 21, and the VTOC has another volume number. *)
Definition reloc_disk : bytes :=
  let d := ex_dos_disk in
  let d := put d 17 0 (upd (ex_vtoc_bytes 17 15) 6 [7]) in
  let d := put d 17 15 ([0; 17; 3] ++ repeat 0 8 ++ ex_entry 20 4 0x82 (s2b "HELLO") 2 ++ ex_entry 18 13 4 (s2b "DATA") 2 ++ repeat 0 35) in
  let d := put d 17 3 ([0; 0; 0] ++ repeat 0 8 ++ ex_entry 21 0 0 (s2b "NOTES") 3 ++ ex_entry 18 8 0 (s2b "ZEROS") 3 ++ ex_entry 18 7 4 (s2b "LONG") 3 ++ ex_entry 18 5 0 (s2b "MEMO") 2) in
  let d := put d 17 14 (repeat 9 256) in
  let d := put d 18 15 (repeat 9 256) in
  let d := put d 18 14 (repeat 9 256) in
  let d := put d 20 4 (repeat 0 12 ++ [20; 3]) in
  let d := put d 20 3 [5; 0; 1; 2; 3; 4; 5] in
  let d := put d 21 0 ([0; 21; 1] ++ repeat 0 9 ++ [21; 2]) in
  let d := put d 21 2 [0xC1; 0xC2] in
  put d 21 1 (repeat 0 12 ++ [0; 0; 18; 10]).
Lemma reloc_ok : bytes_ok reloc_disk.
Proof. apply bytes_ok_forallb. vm_compute. reflexivity. Qed.
Lemma reloc_len : zlen reloc_disk = 143360.
Proof. vm_compute. reflexivity. Qed.
Lemma reloc_catalog : catalog reloc_disk [(17, 15); (17, 3)].
Proof.
  pose proof reloc_len as L.
  assert (in_image reloc_disk 17 0) as Hi by (unfold in_image; rewrite L; unfold offset; lia).
  assert (znth 0 (vtoc reloc_disk) 0x35 = 16) as S by (vm_compute; reflexivity).
  split; [exact Hi|]. split.
  - apply good_vtoc_check; [exact reloc_ok | exact Hi | vm_compute; reflexivity].
  - assert (catalog_start reloc_disk = (17, 15)) as -> by (vm_compute; reflexivity).
    assert (link reloc_disk 17 15 = (17, 3)) as E1 by (vm_compute; reflexivity).
    assert (link reloc_disk 17 3 = (0, 0)) as E2 by (vm_compute; reflexivity).
    constructor; [discriminate | unfold catalog_place; rewrite S, L; unfold offset; lia|]. rewrite E1.
    constructor; [discriminate | unfold catalog_place; rewrite S, L; unfold offset; lia|]. rewrite E2. constructor.
Qed.
Lemma reloc_seen : seen_as (s2b "y.do") (s2b "auto") reloc_disk (s2b "dos3") reloc_disk (s2b "do").
Proof.
  apply (sa_floppy _ _ _ [] _ []); [exact reloc_len|exact reloc_ok| |constructor|].
  - apply candidate_orders_iff. vm_compute. reflexivity.
  - apply ra_dos; [apply (reordered_self _ _ _ reloc_len il_do)|eexists; exact reloc_catalog].
Qed.
Lemma reloc_same : same_dos_files ex_dos_disk [(17, 15); (17, 14)] reloc_disk [(17, 15); (17, 3)].
Proof. apply match_files; [exact ex_dos_disk_ok|exact reloc_ok|exact ex_catalog|exact reloc_catalog|vm_compute; reflexivity]. Qed.
Lemma reloc_other : beq ex_dos_disk reloc_disk = false.
Proof. vm_compute. reflexivity. Qed.
Lemma one_file_room n n' c c' r : w_outroom (one_file n c r) = w_outroom (one_file n' c' r).
Proof. reflexivity. Qed.
Lemma one_file_input n c r : n <> s2b "-" -> input (one_file n c r) n c.
Proof. intros H. right. split; [exact H|]. exists true. unfold one_file. cbn [w_fs]. rewrite beq_refl. reflexivity. Qed.
Lemma reloc_example : exists w w',
  seen_as (s2b "x.dsk") (s2b "auto") ex_dos_disk (s2b "dos3") ex_dos_disk (s2b "do") /\
  seen_as (s2b "y.do") (s2b "auto") reloc_disk (s2b "dos3") reloc_disk (s2b "do") /\
  bytes_ok ex_dos_disk /\ bytes_ok reloc_disk /\ catalog ex_dos_disk [(17, 15); (17, 14)] /\ catalog reloc_disk [(17, 15); (17, 3)] /\
  same_dos_files ex_dos_disk [(17, 15); (17, 14)] reloc_disk [(17, 15); (17, 3)] /\ ex_dos_disk <> reloc_disk /\
  length (filter is_live (entries ex_dos_disk [(17, 15); (17, 14)])) = 6%nat /\
  input w (s2b "x.dsk") ex_dos_disk /\ input w' (s2b "y.do") reloc_disk /\ w_outroom w = w_outroom w'.
Proof.
  exists (one_file (s2b "x.dsk") ex_dos_disk None), (one_file (s2b "y.do") reloc_disk None).
  split; [exact ex_seen_dos|]. split; [exact reloc_seen|]. split; [exact ex_dos_disk_ok|]. split; [exact reloc_ok|].
  split; [exact ex_catalog|]. split; [exact reloc_catalog|]. split; [exact reloc_same|].
  split; [intros E; pose proof reloc_other as X; rewrite E, beq_refl in X; discriminate X|].
  split; [vm_compute; reflexivity|]. split; [apply one_file_input; discriminate|]. split; [apply one_file_input; discriminate|]. apply one_file_room.
Qed.
