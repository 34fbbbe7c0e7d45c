(** * Specification of UTF-8 and UTF-16LE decoding

    Written from RFC 3629 and RFC 2781; used to state that texts can be recovered
    from what the library sends.  Independent of the model's encoders. *)
From Verif Require Import Base.

(** Decode one UTF-8 sequence from the front (lenient about overlong forms: it only
    has to recover what was encoded). *)
Definition cont (b : N) : bool := (128 <=? b) && (b <? 192).
Fixpoint utf8_decode (b : list N) : option (list N) :=
  match b with
  | [] => Some []
  | b0 :: r0 =>
      if b0 <? 128 then cons b0 <$> utf8_decode r0
      else if (192 <=? b0) && (b0 <? 224) then
        match r0 with
        | b1 :: r1 => if cont b1
                      then cons ((b0 - 192) * 64 + (b1 - 128)) <$> utf8_decode r1 else None
        | _ => None
        end
      else if (224 <=? b0) && (b0 <? 240) then
        match r0 with
        | b1 :: b2 :: r2 =>
            if cont b1 && cont b2
            then cons ((b0 - 224) * 4096 + (b1 - 128) * 64 + (b2 - 128)) <$> utf8_decode r2
            else None
        | _ => None
        end
      else if (240 <=? b0) && (b0 <? 248) then
        match r0 with
        | b1 :: b2 :: b3 :: r3 =>
            if cont b1 && cont b2 && cont b3
            then cons ((b0 - 240) * 262144 + (b1 - 128) * 4096 + (b2 - 128) * 64 + (b3 - 128))
                   <$> utf8_decode r3
            else None
        | _ => None
        end
      else None
  end.

(** Decode 16-bit units to Unicode scalar values (surrogate pairs combined). *)
Fixpoint utf16_decode (u : list N) : option (list N) :=
  match u with
  | [] => Some []
  | a :: r =>
      if (55296 <=? a) && (a <? 56320) then
        match r with
        | b :: r' => if (56320 <=? b) && (b <? 57344)
                     then cons (65536 + (a - 55296) * 1024 + (b - 56320)) <$> utf16_decode r'
                     else None
        | [] => None
        end
      else if (56320 <=? a) && (a <? 57344) then None
      else cons a <$> utf16_decode r
  end.

(** Little-endian bytes to 16-bit units. *)
Fixpoint le16_units (b : list N) : option (list N) :=
  match b with
  | [] => Some []
  | lo :: hi :: r => cons (lo + 256 * hi) <$> le16_units r
  | [_] => None
  end.

Definition utf16le_decode (b : list N) : option (list N) :=
  match le16_units b with Some u => utf16_decode u | None => None end.

(** A C string in a fixed-size field: the bytes before the first NUL. *)
Fixpoint c_string (b : list N) : list N :=
  match b with [] => [] | x :: r => if x =? 0 then [] else x :: c_string r end.
