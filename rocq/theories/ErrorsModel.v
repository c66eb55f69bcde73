(** ErrorsModel.v -- model of package errors (errors/errors.go): Go error values as dynamic
    types with method sets, and the tag predicates as type assertions on interfaces.  The
    operator models use the abstraction [gerror] of GoBase.v; [abstracts] relates the two. *)
From Verif Require Import GoBase TypesModel.

(** A Go error value.  [VString]: errors.New and fmt.Errorf without %w; [VWrap]: fmt.Errorf
    with %w, whose type has the methods Error and Unwrap.  The error types of package os, which
    also have none of the three tag methods, behave like [VWrap]. *)
Inductive goerr :=
| VNil
| VOutOfSpace (s : bytes)     (* errors/errors.go:22 *)
| VFileExists (s : bytes)     (* errors/errors.go:55 *)
| VFileNotFound (s : bytes)   (* errors/errors.go:88 *)
| VString (s : bytes)
| VWrap (s : bytes) (e : goerr).

(** The methods of the dynamic type: errors/errors.go:32-38, 65-71, 98-104. *)
Definition methods (e : goerr) : list bytes :=
  match e with
  | VNil => []
  | VOutOfSpace _ => [s2b "Error"; s2b "IsOutOfSpace"]
  | VFileExists _ => [s2b "Error"; s2b "IsFileExists"]
  | VFileNotFound _ => [s2b "Error"; s2b "IsFileNotFound"]
  | VString _ => [s2b "Error"]
  | VWrap _ _ => [s2b "Error"; s2b "Unwrap"]
  end.

(** [_, ok := err.(I)] for an interface with the one method [m]: the dynamic type has it; a
    nil error has no dynamic type. *)
Definition assert_iface (m : bytes) (e : goerr) : bool := existsb (beq m) (methods e).

Definition V_OutOfSpacef (s : bytes) : goerr := VOutOfSpace s.       (* errors/errors.go:41-43 *)
Definition V_FileExistsf (s : bytes) : goerr := VFileExists s.       (* errors/errors.go:74-76 *)
Definition V_FileNotFoundf (s : bytes) : goerr := VFileNotFound s.   (* errors/errors.go:107-109 *)
Definition V_New (s : bytes) : goerr := VString s.                   (* errors/errors.go:14-16 *)
Definition V_IsOutOfSpace : goerr -> bool := assert_iface (s2b "IsOutOfSpace").       (* errors/errors.go:46-49 *)
Definition V_IsFileExists : goerr -> bool := assert_iface (s2b "IsFileExists").       (* errors/errors.go:79-82 *)
Definition V_IsFileNotFound : goerr -> bool := assert_iface (s2b "IsFileNotFound").   (* errors/errors.go:112-115 *)

(** The [gerror] standing for a non-nil error value. *)
Definition abstracts (g : gerror) (v : goerr) : Prop :=
  match v with
  | VNil => False
  | VOutOfSpace _ => g = EOutOfSpace
  | VFileExists _ => g = EFileExists
  | VFileNotFound _ => g = EFileNotFound
  | VString _ => exists t, g = EOther t
  | VWrap _ _ => exists t, g = EOther t
  end.
