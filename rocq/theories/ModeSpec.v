(** Specification: the two ways to build the crate, with overflow checks ([Debug]) and without ([Release]).

    Only three subtractions in the decoders can go below zero: the size of a compound value includes its count, and the length of a
    frame includes itself.  With overflow checks such a subtraction stops the program; without them it wraps around. *)

From Verif Require Import Io Connection ErrorSpec.
Open Scope Z_scope.

(** Format code [c] followed by a size too small to hold the count that follows it (AMQP 1.0, part 1, 1.6.22-1.6.24). *)
Definition short_header (c : Z) (h : bytes) : Prop :=
  (In c [0xc0; 0xc1; 0xe0] /\ exists size count, h = [size; count] /\ size < 1) \/
  (In c [0xd0; 0xd1; 0xf0] /\ exists size count, h = size ++ count /\ zlen size = 4 /\ zlen count = 4 /\ be_val size < 4).
(** Such a header occurs in [inp]: right after its format code, or further on if the code is the element code of an array. *)
Definition short (inp : bytes) : Prop := exists p c q h t, inp = p ++ c :: q ++ h ++ t /\ short_header c h /\
  (q = [] \/ In 0xe0 p \/ In 0xf0 p).

(** The build with checks gives the same as the one without, or stops because of such a header. *)
Definition same_or_stops (inp : bytes) {A} (debug release : res A) : Prop :=
  debug = release \/ (debug = Panic PArith /\ short inp).

(** Two runs over a connection: the same, or the first is cut by [stop]. *)
Definition same_or_cut {S E} (stop : E) (debug release : S * list E) : Prop :=
  debug = release \/ exists before after, snd debug = before ++ [stop] /\ snd release = before ++ after.
