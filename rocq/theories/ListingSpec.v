(** ListingSpec.v -- vocabulary for listing a program that is stored on a disk. *)
From Verif Require Import GoBase CmdModel CmdSpec MainModel BasicModel.
From Verif Require Dos3Spec BasicSpec.

(** [stored d l n f]: on the DOS 3.3 disk [d] with catalog [l] the file [n] is an Applesoft program
    and [f] is what follows its length. *)
Definition stored (d : bytes) (l : list (Z * Z)) (n f : bytes) : Prop :=
  exists e ls data, Dos3Spec.lookup (Dos3Spec.entries d l) n e /\ znth 0 e 2 mod 128 = 2 /\
    Dos3Spec.body d (znth 0 e 0, znth 0 e 1) ls data /\ Dos3Spec.word data 0 = zlen f /\ sub data 2 (2 + zlen f) = f.

(** [p | q]: the second command reads what the first one printed; both exit statuses. *)
Definition piped (p q : prog unit) (w : world) : world * Z * Z :=
  let '(w1, s1) := main_run p w in
  let text := skipn (length (w_stdout w)) (w_stdout w1) in
  let '(w2, s2) := main_run q (World (w_fs w1) (Some text) (w_stdout w) (w_room w1) (w_outroom w)) in
  (w2, s1, s2).

(** [listing ls raw out]: [out] is the LISTing of the lines [ls]. *)
Definition listing (ls : list Line) (raw : bool) (out : bytes) : Prop :=
  exists ts, Forall2 (fun l t => exists s, BasicSpec.decimal (l_Num l) s /\
      t = s ++ [32] ++ concat (map BasicSpec.applesoft_text (l_Bytes l)) ++ [10]) ls ts /\
    (if raw then out = concat ts else BasicSpec.escaped (concat ts) out).

(** A floppy image with the program [ls] under the name HELLO. *)
Definition holds_program (d : bytes) (ls : list Line) : Prop :=
  zlen d = 143360 /\ bytes_ok d /\ Dos3Spec.catalog d [(17, 15)] /\ stored d [(17, 15)] (s2b "HELLO") (BasicSpec.program 0x801 ls).
