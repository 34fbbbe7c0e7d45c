(** * Rust strings

    A Rust [String] is a sequence of Unicode scalar values.  The model keeps
    that sequence; [utf8] is [str::as_bytes] and [utf16] is
    [str::encode_utf16] (both from the Rust standard library). *)
From Verif Require Export Base.

Notation rstring := (list N) (only parsing).

(** Unicode scalar value: what a Rust [char] can hold. *)
Definition is_scalar (c : N) : bool :=
  (c <? 55296) || ((57344 <=? c) && (c <? 1114112)).
Definition is_rstring (s : rstring) : bool := forallb is_scalar s.

(** [char::encode_utf8] (Rust std, core/src/char/methods.rs). *)
Definition utf8_char (c : N) : bytes :=
  if c <? 128 then [c]
  else if c <? 2048 then [192 + c / 64; 128 + c mod 64]
  else if c <? 65536 then [224 + c / 4096; 128 + c / 64 mod 64; 128 + c mod 64]
  else [240 + c / 262144; 128 + c / 4096 mod 64; 128 + c / 64 mod 64; 128 + c mod 64].

(** [str::as_bytes] *)
Definition utf8 (s : rstring) : bytes := mjoin (utf8_char <$> s).

(** [char::encode_utf16] *)
Definition utf16_char (c : N) : list N :=
  if c <? 65536 then [c]
  else [55296 + (c - 65536) / 1024; 56320 + (c - 65536) mod 1024].

(** [str::encode_utf16].collect() *)
Definition utf16 (s : rstring) : list N := mjoin (utf16_char <$> s).

(** ASCII literal in the source text, e.g. "Default Configuration". *)
Require Import Coq.Strings.String Coq.Strings.Ascii.
Fixpoint lit (s : string) : rstring :=
  match s with
  | EmptyString => []
  | String a s' => N_of_ascii a :: lit s'
  end.
