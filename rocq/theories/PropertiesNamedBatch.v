(** PropertiesNamedBatch.v -- property C118: edits of different files under different names, in any order
    (cmd/put.go, cmd/delete.go, supermon/supermon.go). *)
From Coq Require Import Permutation.
From Verif Require Import GoBase TypesModel DiskSpec SupermonModel SupermonSpec SupermonTableSpec SupermonStoreSpec SupermonChainSpec SupermonOpProofs SupermonChainExProofs.
From Verif Require Import ProdosModel CmdModel CmdSpec MainModel NakedCmdSpec SessionSpec NamesSpec BatchSpec NamedBatchSpec NamedBatchProofs NamedBatchExProofs.

(** ** C118 *)
(** Two sessions that consist of the same puts and removals, of different files and with different
    symbols each, in different orders, and in which every command succeeds: the two images hold the
    same files, have the same number of free sectors, and give every name the same address
    ([named_done] says what they hold).  The files may lie in different sectors and the symbols in
    different entries of the table.  [sensible] and [unmarked] are as in C98: what each name amounts
    to when its turn comes has to be the same in both orders. *)
Theorem C118_any_order : forall (iter : list (Z * Subdirectory) -> list (Z * Subdirectory)) fuel order img o h h2 w c d t ch k w1 l1 w2 l2,
  img <> s2b "-" -> first_order img order o ->
  w_fs w img = NFile c true true -> naked_image c o d -> w_room w = None -> w_outroom w = None ->
  plain_disk (d, stored_map d) t -> table_ok t -> names_unique t -> one_chain t ch -> no_numeric_symbols t -> nm t 0 <> [] ->
  (forall n, n <> img -> w_fs w n = b_files k n) -> same_but_symbols (store_of d (stored_map d)) (b_store k) -> cards_of t = b_cards k ->
  named_batch h -> Permutation h h2 -> sensible img h k -> sensible img h2 k ->
  throughout (unmarked img) (map (fun ap => command iter fuel order img (fst ap)) h) w ->
  throughout (unmarked img) (map (fun ap => command iter fuel order img (fst ap)) h2) w ->
  session (map (fun ap => command iter fuel order img (fst ap)) h) w = (w1, l1) -> all_well l1 ->
  session (map (fun ap => command iter fuel order img (fst ap)) h2) w = (w2, l2) -> all_well l2 ->
  exists c1 d1 t1 c2 d2 t2, w_fs w1 img = NFile c1 true true /\ naked_image c1 o d1 /\ w_fs w2 img = NFile c2 true true /\ naked_image c2 o d2 /\
    plain_disk (d1, stored_map d1) t1 /\ plain_disk (d2, stored_map d2) t2 /\ names_unique t1 /\ names_unique t2 /\
    named_done (w_fs w) d (cards_of t) h d1 (cards_of t1) /\
    (forall f, legal f -> f <> 3 -> f <> 4 -> file_on d1 f = file_on d2 f) /\ free_on d1 = free_on d2 /\
    (forall n, n <> [] -> address_of (cards_of t1) n = address_of (cards_of t2) n) /\
    (forall n, n <> img -> w_fs w1 n = w_fs w2 n).
Proof. exact named_any_order. Qed.
Print Assumptions C118_any_order.
(** Three puts and a removal, forwards and backwards, on a disk with the 156 symbols of
    supermon/testdata/chacha20.dsk; the tables do come out different. *)
Example C118_example : forall iter fuel, exists w c d ch k,
  w_fs w (s2b "x.do") = NFile c true true /\ naked_image c (s2b "do") d /\ w_room w = None /\ w_outroom w = None /\
  plain_disk (d, stored_map d) real_table /\ table_ok real_table /\ names_unique real_table /\ one_chain real_table ch /\ no_numeric_symbols real_table /\ nm real_table 0 <> [] /\
  (forall n, n <> s2b "x.do" -> w_fs w n = b_files k n) /\ same_but_symbols (store_of d (stored_map d)) (b_store k) /\ cards_of real_table = b_cards k /\
  named_batch four /\
  forall h, In h [four; rev four] ->
    sensible (s2b "x.do") h k /\ throughout (unmarked (s2b "x.do")) (map (fun ap => command iter fuel (s2b "auto") (s2b "x.do") (fst ap)) h) w /\
    all_well (snd (session (map (fun ap => command iter fuel (s2b "auto") (s2b "x.do") (fst ap)) h) w)).
Proof. exact named_batch_example. Qed.
Example C118_tables_example : b_cards (fst (acts2 four (four_board []))) = b_cards (fst (acts2 (rev four) (four_board []))) -> False.
Proof. exact four_cards. Qed.
