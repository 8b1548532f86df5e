(** C82: how much is measured while a generic value is encoded. *)

From Verif Require Import Encode Decode Valid Wire TypeSpec AllTypes CodecSpec CodecFacts Work WorkSpec WorkFacts.
Open Scope list_scope.
Open Scope Z_scope.

(** ** C82: every value is measured again for each list and each map around it *)

(** The counting functions are the functions of the model: they write and return the same.  Measuring a value measures each value in it
    once. *)
Theorem C82_same : forall v, snd (size_counted v) = variant_size v /\ snd (enc_counted v) = variant_enc v.
Proof. exact counted_same. Qed.
Print Assumptions C82_same.
Theorem C82_measure : forall v, fst (size_counted v) = nodes v.
Proof. exact measure_calls. Qed.
Print Assumptions C82_measure.
(** Encoding a value measures each value in it once for each list and each map around it. *)
Theorem C82_encode : forall v, fst (enc_counted v) = around 0 v.
Proof. exact encode_calls. Qed.
Print Assumptions C82_encode.
(** Nothing is measured for a value without lists and maps; and never more than values times depth, each value taking a byte at least. *)
Theorem C82_bound : forall v, 0 <= fst (enc_counted v) <= (depth v - 1) * nodes v /\ nodes v <= variant_size v.
Proof. exact encode_bound. Qed.
Print Assumptions C82_bound.
(** No bound in proportion to the number of bytes holds: [n] lists in one another come in [9 * n + 1] bytes or fewer from a peer, are read,
    and to encode them again takes [n * (n + 1) / 2] measurements. *)
Theorem C82_quadratic : forall md n rest, 9 * Z.of_nat n + 1 < 2 ^ 32 ->
  zlen (lists_bytes n) = 9 * Z.of_nat n + 1 /\ decode variant_dec md (lists_bytes n ++ rest) = Ok (rest, lists n)
  /\ variant_size (lists n) <= 9 * Z.of_nat n + 1
  /\ 2 * fst (enc_counted (lists n)) = Z.of_nat n * (Z.of_nat n + 1).
Proof. exact quadratic. Qed.
Print Assumptions C82_quadratic.
Theorem C82_linear_refuted : forall c, exists v, variant_ok v /\ c * variant_size v < fst (enc_counted v).
Proof. exact not_linear. Qed.
Print Assumptions C82_linear_refuted.

(** A list holding a number, a map with one entry, and a described list of one value: measured are the three, the key and the value, the
    list inside the described value, and the value in it. *)
Definition ex_work : variant := VList [VUint 7; VMap [(VUint 1, VBoolean true)]; VDescribed (DUlong 5) (VList [VNull])].
Example C82_example : variant_ok ex_work /\ nodes ex_work = 8 /\ depth ex_work = 4
  /\ size_counted ex_work = (8, 18) /\ enc_counted ex_work = (10, variant_enc ex_work) /\ around 0 ex_work = 10.
Proof. split; [cbn; repeat split; first [discriminate|repeat constructor; contradiction]|]. repeat apply conj; vm_compute; reflexivity. Qed.
Example C82_quadratic_example :
  zlen (lists_bytes 40) = 361 /\ decode variant_dec Debug (lists_bytes 40 ++ [7]) = Ok ([7], lists 40)
  /\ variant_size (lists 40) = 121 /\ fst (enc_counted (lists 40)) = 820.
Proof. repeat apply conj; vm_compute; reflexivity. Qed.
