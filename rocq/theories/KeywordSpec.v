(** KeywordSpec.v -- the keywords of Applesoft BASIC (Applesoft II BASIC Programming Reference
    Manual, appendix F: tokens) and of Integer BASIC, written down independently of the tables in
    the code. *)
From Coq Require Import String.
From Verif Require Import GoBase BasicModel BasicSpec.
Local Open Scope list_scope.

(** 0x80 to 0xEA *)
Definition applesoft_words : list string :=
  ["END"; "FOR"; "NEXT"; "DATA"; "INPUT"; "DEL"; "DIM"; "READ"; "GR"; "TEXT"; "PR#"; "IN#"; "CALL"; "PLOT"; "HLIN"; "VLIN";  (* 80 *)
   "HGR2"; "HGR"; "HCOLOR="; "HPLOT"; "DRAW"; "XDRAW"; "HTAB"; "HOME"; "ROT="; "SCALE="; "SHLOAD"; "TRACE"; "NOTRACE"; "NORMAL"; "INVERSE"; "FLASH"; (* 90 *)
   "COLOR="; "POP"; "VTAB"; "HIMEM:"; "LOMEM:"; "ONERR"; "RESUME"; "RECALL"; "STORE"; "SPEED="; "LET"; "GOTO"; "RUN"; "IF"; "RESTORE"; "&"; (* A0 *)
   "GOSUB"; "RETURN"; "REM"; "STOP"; "ON"; "WAIT"; "LOAD"; "SAVE"; "DEF"; "POKE"; "PRINT"; "CONT"; "LIST"; "CLEAR"; "GET"; "NEW"; (* B0 *)
   "TAB("; "TO"; "FN"; "SPC("; "THEN"; "AT"; "NOT"; "STEP"; "+"; "-"; "*"; "/"; "^"; "AND"; "OR"; ">"; (* C0 *)
   "="; "<"; "SGN"; "INT"; "ABS"; "USR"; "FRE"; "SCRN("; "PDL"; "POS"; "SQR"; "RND"; "LOG"; "EXP"; "COS"; "SIN"; (* D0 *)
   "TAN"; "ATN"; "PEEK"; "LEN"; "STR$"; "VAL"; "ASC"; "CHR$"; "LEFT$"; "RIGHT$"; "MID$"]%string. (* E0 *)
(** What LIST shows for a byte of a line, blanks aside. *)
Definition listed (c : Z) : bytes := if c <? 128 then [c] else s2b (nth (Z.to_nat (c - 128)) applesoft_words EmptyString).
Definition no_blanks (s : bytes) : bytes := filter (fun c => negb (c =? 32)) s.
Definition shows (l : Line) : bytes := no_blanks (concat (map listed (l_Bytes l))).

(** Some Integer BASIC tokens, by name. *)
Definition integer_words : list (Z * string) :=
  [(0x03, ":"); (0x12, "+"); (0x13, "-"); (0x14, "*"); (0x15, "/"); (0x16, "="); (0x17, "#"); (0x18, ">="); (0x19, ">"); (0x1A, "<="); (0x1B, "<>"); (0x1C, "<");
   (0x1D, "AND"); (0x1E, "OR"); (0x1F, "MOD"); (0x20, "^"); (0x24, "THEN"); (0x25, "THEN"); (0x2E, "PEEK"); (0x2F, "RND"); (0x30, "SGN"); (0x31, "ABS"); (0x32, "PDL");
   (0x37, "NOT"); (0x3B, "LEN("); (0x3C, "ASC("); (0x3D, "SCRN("); (0x4B, "TEXT"); (0x4C, "GR"); (0x4D, "CALL"); (0x4E, "DIM"); (0x4F, "DIM"); (0x50, "TAB"); (0x51, "END");
   (0x52, "INPUT"); (0x53, "INPUT"); (0x54, "INPUT"); (0x55, "FOR"); (0x56, "="); (0x57, "TO"); (0x58, "STEP"); (0x59, "NEXT"); (0x5B, "RETURN"); (0x5C, "GOSUB"); (0x5D, "REM");
   (0x5E, "LET"); (0x5F, "GOTO"); (0x60, "IF"); (0x61, "PRINT"); (0x62, "PRINT"); (0x63, "PRINT"); (0x64, "POKE"); (0x66, "COLOR="); (0x67, "PLOT"); (0x69, "HLIN"); (0x6B, "AT");
   (0x6C, "VLIN"); (0x6E, "AT"); (0x6F, "VTAB"); (0x71, "="); (0x72, ")"); (0x77, "POP"); (0x7A, "NOTRACE"); (0x7D, "TRACE"); (0x7E, "PR#"); (0x7F, "IN#")]%string.
