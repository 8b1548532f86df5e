(** Vocabulary for values of 2^32 bytes and more. *)

From Verif Require Import Io Wire.
Open Scope list_scope.
Open Scope Z_scope.

(** A frame as it is written. *)
Definition amqp_bytes (f : amqp_frame) : bytes := wbytes (amqp_frame_enc f).
(** What a length field of four bytes leaves of a value, and what is left over. *)
Definition cut_off (b : bytes) : bytes := firstn (Z.to_nat (zlen b mod 2 ^ 32)) b.
Definition left_over (b : bytes) : bytes := skipn (Z.to_nat (zlen b mod 2 ^ 32)) b.
(** Zeros. *)
Definition filling (n : Z) : bytes := repeat 0 (Z.to_nat n).
