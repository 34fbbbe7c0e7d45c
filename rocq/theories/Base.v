(** * Base: integers, casts, byte order, vectors and abnormal outcomes

    Rust's fixed-width unsigned integers are modelled by [N] together with
    explicit range predicates (the Rust type system guarantees them) and
    explicit wrap-around where the code casts or overflows. *)
From stdpp Require Export base list gmap.
From Coq Require Export NArith Lia.
Global Open Scope N_scope.
Global Generalizable No Variables.

(** A byte ([u8]); the bound is the predicate [is_byte]. *)
Notation byte := N (only parsing).
Notation bytes := (list N) (only parsing).

(** Value range of the Rust type u8. *)
Definition is_u8 (n : N) : bool := n <? 256.
Definition all_u8 (l : bytes) : bool := forallb is_u8 l.

(** [x as u8], [x as u16], [x as u32] (Rust reference, numeric casts). *)
Definition as_u8 (n : N) : N := n mod 256.
Definition as_u16 (n : N) : N := n mod 65536.
Definition as_u32 (n : N) : N := n mod 4294967296.

(** [Vec::len] *)
Definition len {A} (l : list A) : N := N.of_nat (length l).

(** [u16::to_be_bytes], [u32::to_be_bytes] (Rust std). *)
Definition be16 (n : N) : bytes := [n / 256 mod 256; n mod 256].
Definition be32 (n : N) : bytes :=
  [n / 16777216 mod 256; n / 65536 mod 256; n / 256 mod 256; n mod 256].

(** [u16::from_be_bytes], [u32::from_be_bytes], tokio's [read_u16] and
    [read_u32] (network byte order). *)
Definition of_be (l : bytes) : N := fold_left (fun acc b => acc * 256 + b) l 0.

(** [Vec::resize(n, 0)]: cut to [n] elements, or pad with zeros. *)
Definition vec_resize (n : N) (l : bytes) : bytes :=
  take (N.to_nat n) l ++ replicate (N.to_nat n - length l) 0.

(** Why a piece of code panics. *)
Inductive panic :=
| PDebugAssert     (* debug_assert! in a debug build *)
| POverflow        (* arithmetic overflow in a debug build *)
| PUnwrapNone      (* Option::unwrap on None *)
| PUnwrapErr       (* Result::unwrap on Err *)
| PIndex           (* index or slice out of bounds *)
| PUnimplemented   (* unimplemented!() *)
| PTodo            (* todo!() *)
| PUnreachable     (* unreachable!() *)
| PPoisoned        (* Mutex::lock().unwrap() on a poisoned mutex *)
| PAssert          (* assert!/assert_eq! *)
| PCustom.         (* a panic raised by user-supplied handler code *)

(** Result of running Rust code: a value, a panic, or non-termination. *)
Inductive outcome (A : Type) :=
| Val (a : A)
| Panic (p : panic)
| Diverge.
Arguments Val {A} a.
Arguments Panic {A} p.
Arguments Diverge {A}.

Definition obind {A B} (x : outcome A) (f : A -> outcome B) : outcome B :=
  match x with Val a => f a | Panic p => Panic p | Diverge => Diverge end.

(** [debug_assert!(b)]: checked only when debug assertions are compiled in.
    [dbg = true] stands for a debug build (debug assertions and overflow
    checks on), [dbg = false] for a release build. *)
Definition debug_assert {A} (dbg b : bool) (k : outcome A) : outcome A :=
  if dbg && negb b then Panic PDebugAssert else k.

(** [std::io::Error], reduced to its kind plus the formatted value where the
    message carries one. *)
Inductive io_error :=
| EUnexpectedEof             (* ErrorKind::UnexpectedEof *)
| EUnknownVersion (v : N)    (* ErrorKind::Other, "Unknown version: .." *)
| EUnknownCommand (c : N)    (* ErrorKind::Other, "Unknown command: .." *)
| EDeviceInUse (id : list N) (* ErrorKind::Other, "Device .. is in use" *)
| EDeviceNotFound (id : list N) (* ErrorKind::NotFound, "Device .. not found" *)
| EInvalidString (i : N)     (* ErrorKind::InvalidInput, "Invalid string index: .." *)
| EIo (code : N)             (* any other error reported by the operating system or socket *)
| EHandler (code : N).       (* any error returned by user-supplied handler code *)

Inductive error_kind := KUnexpectedEof | KOther | KNotFound | KInvalidInput | KSystem (code : N).

Definition kind_of (e : io_error) : error_kind :=
  match e with
  | EUnexpectedEof => KUnexpectedEof
  | EUnknownVersion _ | EUnknownCommand _ | EDeviceInUse _ => KOther
  | EDeviceNotFound _ => KNotFound
  | EInvalidString _ => KInvalidInput
  | EIo c | EHandler c => KSystem c
  end.

(** [std::io::Result] *)
Inductive ioresult (A : Type) :=
| IOk (a : A)
| IErr (e : io_error).
Arguments IOk {A} a.
Arguments IErr {A} e.
