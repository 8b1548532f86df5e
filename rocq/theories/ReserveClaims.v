(** The claims C69 and C75 as theorems: the memory asked for in advance and the number of values begun while decoding.  The
    decoders with what they do ([run]) are in Reserve.v, which of them belongs to which type is in ReserveSpec.v. *)

From Coq Require Import String.
From Verif Require Import Frames Reserve Utf8Spec Valid Wire TypeSpec CompositeSpec AllTypes CodecSpec MessageSpec FrameSpec ReserveSpec
  ReserveFacts.
Open Scope string_scope.
Open Scope list_scope.
Open Scope Z_scope.

(** ** C69 *)
(** Every type of the crate has a decoder with capacities, whatever may be in arrays; composites, unions and frames have one
    in which no array has elements without bytes. *)
Theorem C69_types : forall T (S : tspec T), amqp_type S -> exists D, runs any_element S D.
Proof. exact types_run. Qed.
Print Assumptions C69_types.
Theorem C69_composites : forall K, In K all_composites -> exists D, runs wide_element (composite_S K) D.
Proof. exact (composites_run wide_element wide_allows). Qed.
Print Assumptions C69_composites.
Theorem C69_unions : forall T (S : tspec T) alts, union_type S alts -> exists D, runs wide_element S D.
Proof. exact (unions_run wide_element wide_allows). Qed.
Print Assumptions C69_unions.
Theorem C69_frames : exists R, frame_runs wide_element frame_alts R.
Proof. exact (frames_run wide_element wide_allows). Qed.
Print Assumptions C69_frames.

(** It reads what the decoder without capacities reads. *)
Theorem C69_same : forall E T (S : tspec T) D, runs E S D -> forall md inp, snd (run_decode D md inp) = decode (s_dec S) md inp.
Proof. exact type_erases. Qed.
Print Assumptions C69_same.
Theorem C69_same_amqp : forall E R, frame_runs E frame_alts R -> forall md inp, snd (amqp_frame_run R md inp) = amqp_frame_decode md inp.
Proof. exact amqp_erases. Qed.
Print Assumptions C69_same_amqp.
Theorem C69_same_sasl : forall E D, runs E sasl_frame_body_S D -> forall md inp, snd (sasl_frame_run D md inp) = sasl_frame_decode md inp.
Proof. exact sasl_erases. Qed.
Print Assumptions C69_same_sasl.
Theorem C69_same_message : forall E D, runs E section_S D -> forall md inp, snd (message_run D md inp) = message_decode md inp.
Proof. exact message_erases. Qed.
Print Assumptions C69_same_message.

(** Whatever the input: no more requests than bytes, each for less than 2^32 places. *)
Theorem C69_requests : forall T (S : tspec T) D, runs any_element S D -> forall md inp, bytes_ok inp ->
  Forall (fun n => 0 <= n < 2 ^ 32) (asked (run_decode D md inp)) /\ zlen (asked (run_decode D md inp)) <= zlen inp.
Proof. exact number. Qed.
Print Assumptions C69_requests.
Theorem C69_requests_amqp : forall R, frame_runs any_element frame_alts R -> forall md inp, bytes_ok inp ->
  Forall (fun n => 0 <= n < 2 ^ 32) (asked (amqp_frame_run R md inp)) /\ zlen (asked (amqp_frame_run R md inp)) <= zlen inp.
Proof. exact number_frame. Qed.
Print Assumptions C69_requests_amqp.
Theorem C69_requests_sasl : forall D, runs any_element sasl_frame_body_S D -> forall md inp, bytes_ok inp ->
  Forall (fun n => 0 <= n < 2 ^ 32) (asked (sasl_frame_run D md inp)) /\ zlen (asked (sasl_frame_run D md inp)) <= zlen inp.
Proof. exact number_sasl. Qed.
Print Assumptions C69_requests_sasl.
Theorem C69_requests_message : forall D, runs any_element section_S D -> forall md inp, bytes_ok inp ->
  Forall (fun n => 0 <= n < 2 ^ 32) (asked (message_run D md inp)) /\ zlen (asked (message_run D md inp)) <= zlen inp.
Proof. exact number_message. Qed.
Print Assumptions C69_requests_message.
(** Empty lists inside a list. *)
Example C69_requests_example : let inp := [0xc0; 7; 3; 0xc0; 1; 0; 0xc0; 1; 0; 0x45] in
  runs any_element variant_S variant_rdec /\ bytes_ok inp /\
  asked (run_decode variant_rdec Debug inp) = [3; 0; 0] /\
  snd (run_decode variant_rdec Debug inp) = Ok ([], VList [VList []; VList []; VList []]).
Proof. cbv zeta. split; [apply ru_variant|]. split; [repeat constructor; vm_compute; congruence|]. split; vm_compute; reflexivity. Qed.

(** If decoding succeeds then all it asked for, together, is less than the number of bytes it took: every place is filled by
    a value of at least a byte. *)
Theorem C69_paid : forall T (S : tspec T) D, runs wide_element S D -> forall md inp rest v, bytes_ok inp ->
  decode (s_dec S) md inp = Ok (rest, v) -> total (asked (run_decode D md inp)) < zlen inp - zlen rest.
Proof. exact paid. Qed.
Print Assumptions C69_paid.
Theorem C69_paid_amqp : forall R, frame_runs wide_element frame_alts R -> forall md inp rest f, bytes_ok inp ->
  amqp_frame_decode md inp = Ok (rest, f) -> total (asked (amqp_frame_run R md inp)) <= zlen inp - zlen rest.
Proof. exact paid_frame. Qed.
Print Assumptions C69_paid_amqp.
Theorem C69_paid_sasl : forall D, runs wide_element sasl_frame_body_S D -> forall md inp rest f, bytes_ok inp ->
  sasl_frame_decode md inp = Ok (rest, f) -> total (asked (sasl_frame_run D md inp)) <= zlen inp - zlen rest.
Proof. exact paid_sasl. Qed.
Print Assumptions C69_paid_sasl.
Theorem C69_paid_message : forall D, runs wide_element section_S D -> forall md inp rest m, bytes_ok inp ->
  message_decode md inp = Ok (rest, m) -> total (asked (message_run D md inp)) <= zlen inp.
Proof. exact paid_message. Qed.
Print Assumptions C69_paid_message.
(** Nearly as much as there are bytes can be asked for: a list of a hundred nulls. *)
Example C69_paid_example : let inp := 0xc0 :: 101 :: 100 :: repeat 0x40 100 in
  runs wide_element list_S (list_rdec variant_rdec) /\ bytes_ok inp /\
  asked (run_decode (list_rdec variant_rdec) Debug inp) = [100] /\
  decode (list_dec variant_dec) Debug inp = Ok ([], repeat VNull 100) /\ zlen inp = 103.
Proof. cbv zeta. split; [apply ru_list|]. split; [repeat constructor; vm_compute; congruence|]. repeat split; vm_compute; reflexivity. Qed.

(** How much is asked for is what the header says, though nothing follows: as many places as elements for lists and arrays,
    half as many as keys and values for maps. *)
Theorem C69_list_asks : forall T (D : rdec T) md n, 0 <= n < 2 ^ 32 -> asked (run_decode (list_rdec D) md (0xd0 :: be4 4 ++ be4 n)) = [n].
Proof. exact header_list. Qed.
Print Assumptions C69_list_asks.
Theorem C69_map_asks : forall K V (KO : key K) (DK : rdec K) (DV : rdec V) md n, 0 <= n < 2 ^ 32 ->
  asked (run_decode (map_rdec KO DK DV) md (0xd1 :: be4 4 ++ be4 n)) = [n / 2].
Proof. exact header_map. Qed.
Print Assumptions C69_map_asks.
Theorem C69_vec_map_asks : forall md n, 0 <= n < 2 ^ 32 -> asked (run_decode vecmap_rdec md (0xd1 :: be4 4 ++ be4 n)) = [n / 2].
Proof. exact header_vecmap. Qed.
Print Assumptions C69_vec_map_asks.
Theorem C69_array_asks : forall T (d : dec T) md n c rest, 0 <= n < 2 ^ 32 ->
  asked (run_decode (vec_rdec (simple_run d)) md (0xf0 :: be4 5 ++ be4 n ++ c :: rest)) = [n].
Proof. exact header_vec. Qed.
Print Assumptions C69_array_asks.
Example C69_asks_example : asked (run_decode (map_rdec str_key (simple_run symbol_dec) variant_rdec) Debug (0xd1 :: be4 4 ++ be4 2000000)) = [1000000].
Proof. vm_compute. reflexivity. Qed.

(** If decoding fails it may have asked for far more than there are bytes: nine bytes ask for 2^32 - 1 places, and [n] such
    headers one after the other ask for [n] times as much before it is known that nothing follows. *)
Theorem C69_bounded_refuted : exists md inp, bytes_ok inp /\ zlen inp = 9 /\
  runs any_element variant_S variant_rdec /\ asked (run_decode variant_rdec md inp) = [2 ^ 32 - 1].
Proof.
  exists Debug, (0xd0 :: be4 4 ++ be4 (2 ^ 32 - 1)). split; [repeat constructor; vm_compute; congruence|]. split; [reflexivity|].
  split; [apply ru_variant|]. vm_compute. reflexivity.
Qed.
Print Assumptions C69_bounded_refuted.
Theorem C69_nested : forall md n, let inp := concat (repeat (0xd0 :: be4 4 ++ be4 (2 ^ 32 - 1)) n) in
  bytes_ok inp /\ zlen inp = 9 * Z.of_nat n /\ 
  asked (run_decode variant_rdec md inp) = repeat (2 ^ 32 - 1) n /\ snd (run_decode variant_rdec md inp) = Err (EIncomplete (Some 1)).
Proof. exact nested_asks. Qed.
Print Assumptions C69_nested.
Example C69_nested_example : total (asked (run_decode variant_rdec Release (concat (repeat (0xd0 :: be4 4 ++ be4 (2 ^ 32 - 1)) 100)))) = 429496729500.
Proof. rewrite (proj1 (proj2 (proj2 (C69_nested Release 100)))). vm_compute. reflexivity. Qed.
(** The same in the first frame of a connection, before anything is known about the peer: an Open of 29 bytes whose properties
    say that there are 2^32 - 1 keys and values. *)
Theorem C69_open_refuted : exists R, frame_runs wide_element frame_alts R /\
  asked (amqp_frame_run R Debug ([2; 0; 0; 0; 0x00; 0x53; 0x10; 0xc0; 20; 10; 0xa1; 0] ++ repeat 0x40 8 ++ 0xd1 :: be4 4 ++ be4 (2 ^ 32 - 1))) = [2 ^ 31 - 1] /\
  snd (amqp_frame_run R Debug ([2; 0; 0; 0; 0x00; 0x53; 0x10; 0xc0; 20; 10; 0xa1; 0] ++ repeat 0x40 8 ++ 0xd1 :: be4 4 ++ be4 (2 ^ 32 - 1))) = Err (EIncomplete (Some 1)).
Proof. exact open_asks. Qed.
Print Assumptions C69_open_refuted.
(** In a SASL frame of 20 bytes: an array of mechanisms.  In a message of 12 bytes: application properties. *)
Theorem C69_sasl_refuted : exists D, runs wide_element sasl_frame_body_S D /\
  asked (sasl_frame_run D Debug ([2; 1; 0; 0; 0x00; 0x53; 0x40; 0xc0; 11; 1; 0xf0] ++ be4 5 ++ be4 (2 ^ 32 - 1) ++ [0xa3])) = [2 ^ 32 - 1] /\
  snd (sasl_frame_run D Debug ([2; 1; 0; 0; 0x00; 0x53; 0x40; 0xc0; 11; 1; 0xf0] ++ be4 5 ++ be4 (2 ^ 32 - 1) ++ [0xa3])) = Err (EIncomplete (Some 1)).
Proof. exact sasl_asks. Qed.
Print Assumptions C69_sasl_refuted.
Theorem C69_message_refuted : exists D, runs wide_element section_S D /\
  asked (message_run D Debug ([0x00; 0x53; 0x74; 0xd1] ++ be4 4 ++ be4 (2 ^ 32 - 1))) = [2 ^ 31 - 1] /\
  snd (message_run D Debug ([0x00; 0x53; 0x74; 0xd1] ++ be4 4 ++ be4 (2 ^ 32 - 1))) = Err (EIncomplete (Some 1)).
Proof. exact message_asks. Qed.
Print Assumptions C69_message_refuted.
(** Arrays of elements without bytes: ten bytes are any number of zeros less than 2^32. *)
Theorem C69_no_bytes : forall md n, 0 <= n < 2 ^ 32 ->
  asked (run_decode (vec_rdec (simple_run u32_dec)) md (0xf0 :: be4 5 ++ be4 n ++ [0x43])) = [n] /\
  snd (run_decode (vec_rdec (simple_run u32_dec)) md (0xf0 :: be4 5 ++ be4 n ++ [0x43])) = Ok ([], repeat 0 (Z.to_nat n)).
Proof. exact empty_items_array. Qed.
Print Assumptions C69_no_bytes.
Example C69_no_bytes_example : runs any_element (vec_S u32_A (fun _ => 4) u32_S) (vec_rdec (simple_run u32_dec)) /\
  decode (s_dec (vec_S u32_A (fun _ => 4) u32_S)) Debug (0xf0 :: be4 5 ++ be4 1000 ++ [0x43]) = Ok ([], repeat 0 1000%nat).
Proof.
  assert (H : runs any_element (vec_S u32_A (fun _ => 4) u32_S) (vec_rdec (simple_run u32_dec))).
  { eapply ru_vec; [constructor|exact I|]. exact (ru_simple _ _ u32_S _ la_u32). }
  split; [exact H|]. rewrite <- (C69_same _ _ _ _ H), (proj2 (C69_no_bytes Debug 1000 ltac:(lia))). reflexivity.
Qed.

(** ** C75 *)
(** Whatever the input, no more values are begun than there are bytes, and one: the one that is looked for where the input
    ends.  If decoding succeeds, no more than bytes were consumed. *)
Theorem C75_work : forall T (S : tspec T) D, runs wide_element S D -> forall md inp, bytes_ok inp ->
  begun (run_decode D md inp) <= zlen inp + 1.
Proof. exact work. Qed.
Print Assumptions C75_work.
Theorem C75_consumed : forall T (S : tspec T) D, runs wide_element S D -> forall md inp rest v, bytes_ok inp ->
  decode (s_dec S) md inp = Ok (rest, v) -> begun (run_decode D md inp) <= zlen inp - zlen rest.
Proof. exact work_done. Qed.
Print Assumptions C75_consumed.
Theorem C75_amqp : forall R, frame_runs wide_element frame_alts R -> forall md inp, bytes_ok inp ->
  begun (amqp_frame_run R md inp) <= zlen inp + 1.
Proof. exact work_frame. Qed.
Print Assumptions C75_amqp.
Theorem C75_sasl : forall D, runs wide_element sasl_frame_body_S D -> forall md inp, bytes_ok inp ->
  begun (sasl_frame_run D md inp) <= zlen inp + 1.
Proof. exact work_sasl. Qed.
Print Assumptions C75_sasl.
Theorem C75_message : forall D, runs wide_element section_S D -> forall md inp, bytes_ok inp ->
  begun (message_run D md inp) <= zlen inp + 1.
Proof. exact work_message. Qed.
Print Assumptions C75_message.
(** A map of two entries, one of them a described value: the map, two keys, a string, a descriptor, the described value, a
    null within it. *)
Example C75_work_example : let inp := [0xc1; 13; 4; 0xa3; 1; 97; 0xa1; 0; 0xa3; 1; 98; 0x00; 0x53; 9; 0x40; 0x41] in
  runs wide_element (map_S str_key symbol_S variant_S) (map_rdec str_key (simple_run symbol_dec) variant_rdec) /\ bytes_ok inp /\
  begun (run_decode (map_rdec str_key (simple_run symbol_dec) variant_rdec) Debug inp) = 7 /\
  exists m, decode (s_dec (map_S str_key symbol_S variant_S)) Debug inp = Ok ([0x41], m) /\ zlen m = 2.
Proof.
  cbv zeta. split; [apply ru_map; [exact (ru_simple _ _ symbol_S _ la_symbol)|apply ru_variant]|]. split; [repeat constructor; vm_compute; congruence|].
  split; [vm_compute; reflexivity|]. eexists. split; vm_compute; reflexivity.
Qed.
(** A list header of 9 bytes and nulls: every further byte begins a value. *)
Theorem C75_reached : forall md n, Z.of_nat n < 2 ^ 32 - 1 -> let inp := 0xd0 :: be4 4 ++ be4 (2 ^ 32 - 1) ++ repeat 0x40 n in
  zlen inp = Z.of_nat n + 9 /\ begun (run_decode variant_rdec md inp) = Z.of_nat n + 2 /\
  snd (run_decode variant_rdec md inp) = Err (EIncomplete (Some 1)).
Proof. exact work_reached. Qed.
Print Assumptions C75_reached.
(** Not so for arrays of booleans and unsigned numbers: ten bytes begin any number of values less than 2^32. *)
Theorem C75_arrays_refuted : forall md n rest, 0 <= n < 2 ^ 32 ->
  begun (run_decode (vec_rdec (simple_run u32_dec)) md (0xf0 :: be4 5 ++ be4 n ++ 0x43 :: rest)) = n + 1 /\
  snd (run_decode (vec_rdec (simple_run u32_dec)) md (0xf0 :: be4 5 ++ be4 n ++ 0x43 :: rest)) = Ok (rest, repeat 0 (Z.to_nat n)).
Proof. exact empty_items_work. Qed.
Print Assumptions C75_arrays_refuted.
Example C75_arrays_example : runs any_element (vec_S u32_A (fun _ => 4) u32_S) (vec_rdec (simple_run u32_dec)) /\
  begun (run_decode (vec_rdec (simple_run u32_dec)) Debug (0xf0 :: be4 5 ++ be4 4000000000 ++ [0x43])) = 4000000001.
Proof.
  split; [eapply ru_vec; [constructor|exact I|]; exact (ru_simple _ _ u32_S _ la_u32)|].
  exact (proj1 (C75_arrays_refuted Debug 4000000000 [] ltac:(lia))).
Qed.
