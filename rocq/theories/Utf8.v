(** [core::str::from_utf8]: the validation automaton of the Rust standard library
    (library/core/src/str/validations.rs, run_utf8_validation), external to the crate.
    Used by /repo/src/codec/decode.rs lines 201, 205, 217, 221, 233, 237, 247.
    Simplification: the error position ([Utf8Error::valid_up_to]) is not modelled. *)

From Verif Require Import Base.

Definition in_rng (lo hi b : Z) : bool := (lo <=? b) && (b <=? hi).
(** continuation byte *)
Definition is_cont (b : Z) : bool := in_rng 0x80 0xBF b.

Fixpoint utf8_valid (l : bytes) : bool :=
  match l with
  | [] => true
  | b0 :: r0 =>
    if b0 <? 0x80 then utf8_valid r0
    else if in_rng 0xC2 0xDF b0 then
      match r0 with
      | b1 :: r1 => is_cont b1 && utf8_valid r1
      | _ => false
      end
    else if in_rng 0xE0 0xEF b0 then
      match r0 with
      | b1 :: b2 :: r2 =>
        (if b0 =? 0xE0 then in_rng 0xA0 0xBF b1
         else if b0 =? 0xED then in_rng 0x80 0x9F b1
         else is_cont b1)
        && is_cont b2 && utf8_valid r2
      | _ => false
      end
    else if in_rng 0xF0 0xF4 b0 then
      match r0 with
      | b1 :: b2 :: b3 :: r3 =>
        (if b0 =? 0xF0 then in_rng 0x90 0xBF b1
         else if b0 =? 0xF4 then in_rng 0x80 0x8F b1
         else is_cont b1)
        && is_cont b2 && is_cont b3 && utf8_valid r3
      | _ => false
      end
    else false
  end.

(** [char::from_u32(c).is_some()] : Unicode scalar values. *)
Definition char_ok (c : Z) : bool := in_rng 0 0xD7FF c || in_rng 0xE000 0x10FFFF c.
