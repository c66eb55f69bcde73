(** MainSpec.v -- vocabulary for C85, C86 and C87. *)
From Verif Require Import GoBase TypesModel CmdModel.

(** ** C85: integer literals *)
(** [c] is a digit of value [v] in base [b]. *)
Inductive digit (b : Z) : Z -> Z -> Prop :=
| dg_dec c : 48 <= c <= 57 -> c - 48 < b -> digit b c (c - 48)
| dg_low c : 97 <= c <= 122 -> c - 87 < b -> digit b c (c - 87)
| dg_up c : 65 <= c <= 90 -> c - 55 < b -> digit b c (c - 55).
(** Digits, with single underscores (95) allowed between them. *)
Inductive digits (b : Z) : bytes -> Z -> Prop :=
| ds_one c v : digit b c v -> digits b [c] v
| ds_more s c n v : digits b s n -> digit b c v -> digits b (s ++ [c]) (n * b + v)
| ds_sep s c n v : digits b s n -> digit b c v -> digits b (s ++ [95; c]) (n * b + v).
(** [prefix p b]: 0b, 0o, 0x (either case) announce base 2, 8, 16. *)
Inductive prefix : bytes -> Z -> Prop :=
| px_b : prefix (s2b "0b") 2 | px_B : prefix (s2b "0B") 2
| px_o : prefix (s2b "0o") 8 | px_O : prefix (s2b "0O") 8
| px_x : prefix (s2b "0x") 16 | px_X : prefix (s2b "0X") 16.
(** Integer literals of Go, without sign. *)
Inductive literal : bytes -> Z -> Prop :=
| lit_dec c s n : c <> 48 -> digits 10 (c :: s) n -> literal (c :: s) n
| lit_oct s n : digits 8 (48 :: s) n -> literal (48 :: s) n
| lit_pre p b s n : prefix p b -> digits b s n -> literal (p ++ s) n
| lit_pre_ p b s n : prefix p b -> digits b s n -> literal (p ++ 95 :: s) n.

(** ** C86: tables *)
(** [cell_in w c t]: [t] is [c] followed by blanks, [w] characters in all, at least one of them
    a blank. *)
Definition cell_in (w : Z) (c t : bytes) : Prop := exists k, (0 < k)%nat /\ t = c ++ repeat 32 k /\ zlen t = w.
(** [row_in ws r t]: [t] is the line of row [r] in columns of widths [ws]; the last cell is not
    padded. *)
Inductive row_in : list Z -> list bytes -> bytes -> Prop :=
| ri_last c : row_in [] [c] (c ++ [10])
| ri_cell w ws c r t u : cell_in w c t -> row_in ws r u -> row_in (w :: ws) (c :: r) (t ++ u).

(** The two lines above the table, and the row of a file type. *)
Definition header : list bytes := [s2b "Description"; s2b "Name"; s2b "Three-letter Name"; s2b "One-letter Name"].
Definition dashes : list bytes := [s2b "-----------"; s2b "----"; s2b "-----------------"; s2b "---------------"].
Definition shown_row (i : FiletypeInfo) : list bytes := [fi_desc i; fi_name i; fi_three i; fi_one i].

(** ** C87: no write of the run fails *)
Fixpoint all_written {A} (p : prog A) (w : world) : Prop :=
  match p with
  | PRet _ => True
  | PRead n k => all_written (k (sys_read (w_fs w n))) w
  | PStdin k => all_written (k (snd (sys_stdin w))) (fst (sys_stdin w))
  | PStat n k => all_written (k (sys_notexist (w_fs w n))) w
  | PWrite n c k => snd (sys_write w n c) = Ok tt /\ all_written (k (Ok tt)) (fst (sys_write w n c))
  | PStdout c k => snd (sys_stdout w c) = Ok tt /\ all_written (k (Ok tt)) (fst (sys_stdout w c))
  end.
(** Success is only reported when everything was written. *)
Definition honest {A} (p : prog A) : Prop := forall w w' a, run p w = (w', Ok a) -> all_written p w.
