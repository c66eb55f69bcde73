(** GoBase.v -- the fragment of Go that the model uses.

    Definitions only; lemmas are in GoLemmas.v.
    Go integers are [Z] with explicit wrapping; byte slices, arrays and strings are
    [list Z]; (value, error) results and run-time panics are [res]. *)
From Coq Require Export List ZArith Lia Bool.
From Coq Require Import String Ascii.
Export ListNotations.
Export StringSyntax.
Global Open Scope Z_scope.
Global Open Scope list_scope.

(** ** Integers *)

(** Go [byte] (uint8), [uint16], [uint64]: conversion from an unbounded value wraps. *)
Definition u8 (x : Z) : Z := x mod 256.
Definition u16 (x : Z) : Z := x mod 65536.
Definition u64 (x : Z) : Z := x mod 18446744073709551616.

Definition is_byte (b : Z) : Prop := 0 <= b < 256.
Definition is_u16 (b : Z) : Prop := 0 <= b < 65536.
Definition is_byteb (b : Z) : bool := (0 <=? b) && (b <? 256).

(** ** Byte strings and slices *)

Definition bytes := list Z.
Definition bytes_ok (l : bytes) : Prop := Forall is_byte l.

(** Go [len]. *)
Definition zlen {A} (l : list A) : Z := Z.of_nat (List.length l).

(** Element access [l[i]].  Total: callers establish [0 <= i < zlen l] (array bounds that
    are constants in the source); data-dependent accesses go through [idx] below. *)
Definition znth {A} (d : A) (l : list A) (i : Z) : A := nth (Z.to_nat i) l d.

(** Slice expression [l[a:b]] (callers establish [0 <= a <= b <= zlen l]). *)
Definition sub {A} (l : list A) (a b : Z) : list A :=
  firstn (Z.to_nat (b - a)) (skipn (Z.to_nat a) l).

(** [copy(l[a:a+len(d)], d)]: in-place overwrite
    (callers establish [0 <= a] and [a + zlen d <= zlen l]). *)
Definition upd {A} (l : list A) (a : Z) (d : list A) : list A :=
  firstn (Z.to_nat a) l ++ d ++ skipn (Z.to_nat (a + zlen d)) l.

(** [l[i] = v]. *)
Definition zset {A} (l : list A) (i : Z) (v : A) : list A := upd l i [v].

(** [make([]byte, n)]. *)
Definition zeros (n : Z) : bytes := repeat 0 (Z.to_nat n).

(** The index sequence of [for i := 0; i < n; i++]. *)
Fixpoint zseq (a : Z) (n : nat) : list Z :=
  match n with O => [] | S n' => a :: zseq (a + 1) n' end.
Definition zrange (n : Z) : list Z := zseq 0 (Z.to_nat n).

(** Structural equality of byte strings (Go [==] on strings). *)
Fixpoint beq (a b : bytes) : bool :=
  match a, b with
  | [], [] => true
  | x :: a', y :: b' => (x =? y) && beq a' b'
  | _, _ => false
  end.

(** ** Errors and results *)

(** Error classes: the three tagged classes of errors/errors.go and every other error
    (only a short tag of the message is kept). *)
Inductive gerror :=
| EOutOfSpace
| EFileExists
| EFileNotFound
| EOther (tag : string).

(** Outcome of a Go call returning [(A, error)]. *)
Inductive res (A : Type) :=
| Ok (a : A)
| Err (e : gerror)
| Panic.
Arguments Ok {A} a.
Arguments Err {A} e.
Arguments Panic {A}.

Definition rbind {A B} (r : res A) (f : A -> res B) : res B :=
  match r with
  | Ok a => f a
  | Err e => Err e
  | Panic => Panic
  end.
Notation "x <- r ;; k" := (rbind r (fun x => k)) (at level 100, r at next level, right associativity).

(** Bounds-checked element access. *)
Definition idx (l : bytes) (i : Z) : res Z :=
  if (0 <=? i) && (i <? zlen l) then Ok (znth 0 l i) else Panic.

(** Bounds-checked slice expression on a slice whose capacity equals its length. *)
Definition slice {A} (l : list A) (a b : Z) : res (list A) :=
  if (0 <=? a) && (a <=? b) && (b <=? zlen l) then Ok (sub l a b) else Panic.

(** ** Little-endian 16-bit values (encoding/binary) *)
Definition le16 (lo hi : Z) : Z := lo + 256 * hi.
Definition put16 (v : Z) : bytes := [v mod 256; v / 256].
(** [binary.LittleEndian.Uint16(l[a:a+2])] *)
Definition get16 (l : bytes) (a : Z) : Z := le16 (znth 0 l a) (znth 0 l (a + 1)).

(** ** Strings *)

(** String literals as byte lists. *)
Fixpoint s2b (s : string) : bytes :=
  match s with
  | EmptyString => []
  | String c s' => Z.of_N (N_of_ascii c) :: s2b s'
  end.

Definition is_lower (c : Z) : bool := (97 <=? c) && (c <=? 122).
Definition is_upper (c : Z) : bool := (65 <=? c) && (c <=? 90).
Definition is_digit (c : Z) : bool := (48 <=? c) && (c <=? 57).
Definition up (c : Z) : Z := if is_lower c then c - 32 else c.
Definition low (c : Z) : Z := if is_upper c then c + 32 else c.
Definition is_ascii (s : bytes) : Prop := Forall (fun c => 0 <= c < 128) s.

(** [strings.ToUpper].  Exact on ASCII strings.  Of the non-ASCII runes only the two whose
    upper case is ASCII are mapped (U+0131 "C4 B1" to I, U+017F "C5 BF" to S); all other
    non-ASCII bytes are copied.  The only caller (encodeSymbol) ignores non-ASCII bytes of
    the result, so this is exact for it. *)
Fixpoint to_upper (s : bytes) : bytes :=
  match s with
  | [] => []
  | c :: s' =>
      match s' with
      | c2 :: s'' =>
          if (c =? 196) && (c2 =? 177) then 73 :: to_upper s''
          else if (c =? 197) && (c2 =? 191) then 83 :: to_upper s''
          else up c :: to_upper s'
      | [] => [up c]
      end
  end.

(** [strings.ToLower].  Exact on ASCII strings; of the non-ASCII runes U+212A KELVIN SIGN
    "E2 84 AA" (lower case k) and U+0130 "C4 B0" (lower case i) are mapped, all others are
    copied.  Its results are only ever compared with ASCII literals. *)
Fixpoint to_lower (s : bytes) : bytes :=
  match s with
  | [] => []
  | c :: s1 =>
      match s1 with
      | [] => [low c]
      | c2 :: s2 =>
          if (c =? 196) && (c2 =? 176) then 105 :: to_lower s2 else
          match s2 with
          | [] => low c :: to_lower s1
          | c3 :: s3 =>
              if (c =? 226) && (c2 =? 132) && (c3 =? 170) then 107 :: to_lower s3
              else low c :: to_lower s1
          end
      end
  end.

(** Canonical form under simple case folding: ASCII lower case, U+212A to k, U+017F to s. *)
Fixpoint fold_case (s : bytes) : bytes :=
  match s with
  | [] => []
  | c :: s1 =>
      match s1 with
      | [] => [low c]
      | c2 :: s2 =>
          if (c =? 197) && (c2 =? 191) then 115 :: fold_case s2 else
          match s2 with
          | [] => low c :: fold_case s1
          | c3 :: s3 =>
              if (c =? 226) && (c2 =? 132) && (c3 =? 170) then 107 :: fold_case s3
              else low c :: fold_case s1
          end
      end
  end.

(** [strings.EqualFold].  Exact whenever at least one argument is ASCII (every name read
    from a disk is); for two non-ASCII arguments other Unicode foldings are not modelled. *)
Definition equal_fold (a b : bytes) : bool := beq (fold_case a) (fold_case b).

(** [strconv.ParseUint(s, 16, 16)]: one or more hex digits of either case, value below
    2^16; anything else is an error ([None]). *)
Definition hexval (c : Z) : option Z :=
  if is_digit c then Some (c - 48)
  else if (97 <=? c) && (c <=? 102) then Some (c - 97 + 10)
  else if (65 <=? c) && (c <=? 70) then Some (c - 65 + 10)
  else None.

Fixpoint parse_hex_acc (s : bytes) (acc : Z) : option Z :=
  match s with
  | [] => Some acc
  | c :: s' =>
      match hexval c with
      | Some d => parse_hex_acc s' (acc * 16 + d)
      | None => None
      end
  end.

Definition parse_uint16_hex (s : bytes) : option Z :=
  match s with
  | [] => None
  | _ => match parse_hex_acc s 0 with
         | Some v => if v <? 65536 then Some v else None
         | None => None
         end
  end.

(** One upper-case hexadecimal digit, and [%02X] of a byte. *)
Definition hexdigit (d : Z) : Z := if d <? 10 then 48 + d else 55 + d.
Definition hex2 (b : Z) : bytes := [hexdigit (b / 16); hexdigit (b mod 16)].

(** [strings.Split(s, ":")]. *)
Fixpoint split_colon_aux (s cur : bytes) : list bytes :=
  match s with
  | [] => [rev cur]
  | c :: s' => if c =? 58 then rev cur :: split_colon_aux s' []
               else split_colon_aux s' (c :: cur)
  end.
Definition split_colon (s : bytes) : list bytes := split_colon_aux s [].

(** ** Stateful computations

    [st S A]: a computation over a mutable state [S] (a byte slice or struct that the Go
    code mutates in place).  The state is returned next to the outcome, also when the
    outcome is an error or a panic. *)
Definition st (S A : Type) := S -> S * res A.
Definition sret {S A} (a : A) : st S A := fun s => (s, Ok a).
Definition serr {S A} (e : gerror) : st S A := fun s => (s, Err e).
Definition spanic {S A} : st S A := fun s => (s, Panic).
Definition lift {S A} (r : res A) : st S A := fun s => (s, r).
Definition sbind {S A B} (m : st S A) (f : A -> st S B) : st S B :=
  fun s => match m s with
           | (s', Ok a) => f a s'
           | (s', Err e) => (s', Err e)
           | (s', Panic) => (s', Panic)
           end.
Notation "x <== m ;; k" := (sbind m (fun x => k))
  (at level 100, m at next level, right associativity).

(** [for _, i := range l { body }] where the body may return early with an error. *)
Fixpoint for_ {S I} (l : list I) (body : I -> st S unit) : st S unit :=
  match l with
  | [] => sret tt
  | i :: l' => (_ <== body i ;; for_ l' body)
  end.
