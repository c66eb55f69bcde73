(** BasicSpec.v -- independent vocabulary for the properties of package basic.  Of BasicModel only
    the type [Line] and the two keyword tables are used. *)
From Verif Require Import GoBase DiskSpec BasicModel.
From Verif Require Dos3Spec.
Notation returns := Dos3Spec.returns.
Notation diverges := Dos3Spec.diverges.

Definition word (b : bytes) (a : Z) : Z := znth 0 b a + 256 * znth 0 b (a + 1).

(** ** Decimal numbers *)
Fixpoint value (s : bytes) (acc : Z) : Z := match s with [] => acc | c :: s => value s (10 * acc + (c - 48)) end.
(** [s] is the decimal numeral of [n]. *)
Definition decimal (n : Z) (s : bytes) : Prop :=
  s <> [] /\ Forall (fun c => 48 <= c <= 57) s /\ value s 0 = n /\ (hd 0 s = 48 -> s = [48]).
(** [decimal], padded with blanks to five places. *)
Definition decimal5 (n : Z) (s : bytes) : Prop := exists k t, s = repeat 32 k ++ t /\ decimal n t /\ Z.of_nat k = Z.max 0 (5 - zlen t).

(** ** Files: a program with or without a DOS length header *)
(** What is left of a file: the file itself if its first two bytes are not its size (less 2 or
    3), else all but the first two bytes. *)
Definition has_header (f : bytes) : Prop := 2 <= zlen f /\ (word f 0 = zlen f - 2 \/ word f 0 = zlen f - 3).
Definition body (f p : bytes) : Prop := (has_header f /\ f = sub f 0 2 ++ p) \/ (~ has_header f /\ p = f).

(** ** Applesoft programs *)
(** The bytes of a line: ASCII characters and the tokens 0x80 to 0xEA. *)
Definition applesoft_byte (c : Z) : Prop := 0 < c <= 0xEA.
Definition line_ok (l : Line) : Prop := is_u16 (l_Num l) /\ Forall applesoft_byte (l_Bytes l).
(** A program in memory at [loc]: per line the address of the next line, the number, the bytes
    and a zero; at the end a zero address. *)
Definition line_size (l : Line) : Z := zlen (l_Bytes l) + 5.
Fixpoint program (loc : Z) (ls : list Line) : bytes :=
  match ls with
  | [] => [0; 0]
  | l :: ls => put16 (loc + line_size l) ++ put16 (l_Num l) ++ l_Bytes l ++ [0] ++ program (loc + line_size l) ls
  end.

(** A byte of a line in a listing: itself, or a keyword between blanks. *)
Definition applesoft_text (c : Z) : bytes := if c <? 128 then [c] else [32] ++ znth [] applesoftTokens (c - 128) ++ [32].

(** ** Reading an Applesoft program by following the addresses *)
(** [line_at p loc a nx l]: at address [a] of the memory [p] loaded at [loc] there is a line [l]
    with a non-zero next address [nx]. *)
Definition line_at (p : bytes) (loc a nx : Z) (l : Line) : Prop :=
  loc <= a /\ a - loc + 5 + zlen (l_Bytes l) <= zlen p /\ nx = word p (a - loc) /\ nx <> 0 /\
  l_Num l = word p (a - loc + 2) /\ l_Bytes l = sub p (a - loc + 4) (a - loc + 4 + zlen (l_Bytes l)) /\
  znth 0 p (a - loc + 4 + zlen (l_Bytes l)) = 0 /\ Forall applesoft_byte (l_Bytes l).
(** [follows p loc a ls b]: the lines [ls] lead from address [a] to address [b]. *)
Inductive follows (p : bytes) (loc : Z) : Z -> list Line -> Z -> Prop :=
| follows_nil a : follows p loc a [] a
| follows_cons a nx l ls b : a <> 0 -> line_at p loc a nx l -> follows p loc nx ls b -> follows p loc a (l :: ls) b.
(** The program ends at [a]: the address or the two bytes stored there are zero. *)
Definition ends_at (p : bytes) (loc a : Z) : Prop := a = 0 \/ (loc <= a /\ a - loc + 2 <= zlen p /\ word p (a - loc) = 0).

(** ** Integer BASIC programs *)
Definition iline_ok (l : Line) : Prop := is_u16 (l_Num l) /\ bytes_ok (l_Bytes l) /\ zlen (l_Bytes l) + 4 <= 255.
Definition iline (l : Line) : bytes := [zlen (l_Bytes l) + 4] ++ put16 (l_Num l) ++ l_Bytes l ++ [1].
Definition iprogram (ls : list Line) : bytes := concat (map iline ls).

(** What cannot start a line: a size of zero, or one too small for a line although the byte it
    points at is an end mark. *)
Definition stuck (rest : bytes) : Prop :=
  3 < zlen rest /\ (znth 0 rest 0 = 0 \/ (1 <= znth 0 rest 0 <= 3 /\ znth 0 rest (znth 0 rest 0 - 1) = 1)).

(** ** Integer BASIC text: the parts of a line *)
Inductive item := Token (c : Z) | Char (c : Z) | Number (mark n : Z).
Definition alnum (c : Z) : Prop := 48 <= c <= 57 \/ 65 <= c <= 90 \/ 97 <= c <= 122.
Definition digit (c : Z) : Prop := 48 <= c <= 57.
Definition item_bytes (i : item) : bytes :=
  match i with Token c => [c] | Char c => [c + 128] | Number mark n => [mark + 128] ++ put16 n end.
(** After a letter or digit a digit is a character of a name; otherwise it marks a number. *)
Inductive items_ok : bool -> list item -> Prop :=
| io_nil b : items_ok b []
| io_token b c is : 0 <= c < 128 -> c <> 0x5D -> items_ok false is -> items_ok b (Token c :: is)
| io_name c is : alnum c -> items_ok true is -> items_ok true (Char c :: is)
| io_char b (c : Z) is b' : 0 <= c < 128 -> ~ digit c -> (b' = true <-> alnum c) -> items_ok b' is -> items_ok b (Char c :: is)
| io_number mark n is : digit mark -> is_u16 n -> items_ok true is -> items_ok false (Number mark n :: is).
Inductive item_text : item -> bytes -> Prop :=
| it_token c : item_text (Token c) (znth [] integerTokens c ++ if 1 <? zlen (znth [] integerTokens c) then s2b " " else [])
| it_char c : item_text (Char c) [c]
| it_number mark n s : decimal n s -> item_text (Number mark n) s.
(** A line may end in a remark, whose bytes are characters. *)
Definition remark_bytes (r : option bytes) : bytes := match r with None => [] | Some t => [0x5D] ++ map (fun c => c + 128) t end.
Definition remark_text (r : option bytes) : bytes := match r with None => [] | Some t => s2b "REM " ++ t end.
Definition remark_ok (r : option bytes) : Prop := match r with None => True | Some t => Forall (fun c => 0 <= c < 128) t end.

(** ** Control codes *)
Definition control (c : Z) : Prop := 0 <= c < 32 /\ c <> 9 /\ c <> 10.
(** The documented code of a control character, without the chevrons. *)
Definition code_name (c : Z) : bytes :=
  match c with 0 => s2b "NUL" | 27 => s2b "?" | 28 => s2b "FS" | 29 => s2b "GS" | 30 => s2b "RS" | 31 => s2b "US" | _ => s2b "ctrl-" ++ [c + 64] end.
Definition in_chevrons (s : bytes) : bytes := [0xC2; 0xAB] ++ s ++ [0xC2; 0xBB].
Inductive escaped : bytes -> bytes -> Prop :=
| esc_nil : escaped [] []
| esc_plain c s t : ~ control c -> escaped s t -> escaped (c :: s) (c :: t)
| esc_control c s t : control c -> escaped s t -> escaped (c :: s) (in_chevrons (code_name c) ++ t).
