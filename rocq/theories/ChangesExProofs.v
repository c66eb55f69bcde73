(** ChangesExProofs.v -- examples for property C113. *)
From Coq Require Import ZifyBool ZifyNat.
From Verif Require Import GoBase GoLemmas TypesModel SupermonModel SupermonSpec SupermonTableSpec NakedCmdSpec NakedExProofs ProdosModel CmdModel CmdSpec BoundExProofs ChangesSpec ChangesTabProofs.

Lemma place_example : let d := map_disk (zset five_map 13 9) in
  floppy d (zset five_map 13 9) /\ taken d 6 (repeat 7 300) = [12; 14] /\ taken d 5 (repeat 7 300) = [12; 14] /\
  zlen (room d 6) = 546 /\ zlen (room d 5) = 547.
Proof.
  cbv zeta. assert (Hf : floppy (map_disk (zset five_map 13 9)) (zset five_map 13 9)) by (apply map_disk_floppy; [reflexivity|vm_compute; reflexivity]).
  split; [exact Hf|]. unfold taken, room. rewrite (fl_map _ _ Hf). repeat split; vm_compute; reflexivity.
Qed.
Lemma place_put_example : forall (iter : list (Z * Subdirectory) -> list (Z * Subdirectory)) fuel, exists w w' s,
  input w (s2b "f") s /\ s <> [] /\ is_ascii (s2b "40:cout") /\
  run (PutCmd_Run iter fuel (s2b "auto") (s2b "auto") (s2b "B") false 0 (s2b "x.do") (s2b "40:cout") (s2b "f")) w = (w', Ok tt).
Proof.
  intros iter fuel. destruct (bound_example iter fuel) as (w & w' & c & d & I1 & _ & _ & _ & _ & _ & _ & _ & _ & _ & _ & _ & _ & _ & Hr).
  exists w, w', (repeat 7 300). split; [exact I1|]. split; [discriminate|]. split; [|exact Hr]. let l := eval vm_compute in (s2b "40:cout") in change (is_ascii l). unfold is_ascii. repeat (apply Forall_cons; [lia|]). apply Forall_nil.
Qed.
Lemma table_example : let t := [Sym 0xDF05 (s2b "A") (-1); sym0; Sym 0xDF06 (s2b "B") (-1)] in
  added t (s2b "C") 0xDE04 [Sym 0xDF05 (s2b "A") 1; Sym 0xDE04 (s2b "C") (-1); Sym 0xDF06 (s2b "B") (-1)] /\
  added t (s2b "b") 0xDE04 [Sym 0xDF05 (s2b "A") 2; sym0; Sym 0xDE04 (s2b "b") (-1)] /\
  deleted [Sym 0xDF05 (s2b "A") 1; Sym 0xDE04 (s2b "C") (-1)] (s2b "c") [Sym 0xDF05 (s2b "A") (-1); Sym 0 [] (-1)].
Proof.
  cbv zeta. split; [apply AddSymbol_added; vm_compute; reflexivity|]. split; [apply AddSymbol_added; vm_compute; reflexivity|].
  apply DeleteSymbol_deleted. vm_compute. reflexivity.
Qed.
