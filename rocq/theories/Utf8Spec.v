(** UTF-8, from the definition of the encoding form (Unicode, D92): a text is a sequence of scalar values, each encoded on
    one to four bytes.  Independent of the validation automaton in Utf8.v. *)

From Verif Require Import Base.

Definition scalar (c : Z) : Prop := 0 <= c <= 0xD7FF \/ 0xE000 <= c <= 0x10FFFF.

Definition utf8_encode (c : Z) : bytes :=
  if c <? 0x80 then [c]
  else if c <? 0x800 then [0xC0 + c / 64; 0x80 + c mod 64]
  else if c <? 0x10000 then [0xE0 + c / 4096; 0x80 + (c / 64) mod 64; 0x80 + c mod 64]
  else [0xF0 + c / 262144; 0x80 + (c / 4096) mod 64; 0x80 + (c / 64) mod 64; 0x80 + c mod 64].

Definition is_utf8 (b : bytes) : Prop :=
  exists text : list Z, Forall scalar text /\ b = flat_map utf8_encode text.
