(** The claims C31, C32, C43, C57 and the parts of C02, C07, C10, C12, C22, C41 about frames as theorems.  The vocabulary is in
    FrameSpec.v. *)

From Coq Require Import String.
From Verif Require Import Io Utf8Spec Valid Wire TypeSpec CompositeSpec AllTypes CodecSpec MessageSpec FrameSpec FrameFacts FramingFacts.
Open Scope string_scope.
Open Scope list_scope.
Open Scope Z_scope.

Ltac utf8 l := exists l; split; [repeat (apply Forall_cons; [left; lia|]); apply Forall_nil|reflexivity].

(** Two frames used in the examples: a transfer with a payload, and a SASL mechanisms frame. *)
Definition a_transfer : transfer_t :=
  MkTransfer 3 (Some 300) (Some [1; 2]) None (Some true) false None (Some (DS_Accepted MkAccepted)) false false true (Some (TBData [9; 8; 7])).
Definition a_sasl : sasl_frame_body := SB_SaslOutcome (MkSaslOutcome SaslCode_Ok (Some [5])).
(** A message with a header section. *)
Definition headed : message :=
  MkMessage None (Some (MkHeader true 4 None false 0)) None None None None None (MkBody [[1]] [] [] None) 0.
Definition headed_transfer : frame := FR_Transfer (MkTransfer 0 None None None None false None None false false false (Some (TBMessageOut headed))).

(** ** C02 *)
(** The size announced is the number of bytes written plus 3 for every header section in the message a transfer carries. *)
Theorem C02_frame_size : forall ch f, frame_valid f -> frame_memo_ok f ->
  amqp_frame_size (MkAmqpFrame ch f) = zlen (wbytes (amqp_frame_enc (MkAmqpFrame ch f))) + 3 * frame_headers f /\
  frame_size f = zlen (frame_bytes f) + 3 * frame_headers f /\ 0 <= frame_headers f.
Proof. exact amqp_size_bytes. Qed.
Print Assumptions C02_frame_size.
Theorem C02_sasl_frame_size : forall b, s_valid sasl_frame_body_S b ->
  sasl_frame_size (MkSaslFrame b) = zlen (wbytes (sasl_frame_enc (MkSaslFrame b))).
Proof. exact sasl_size_bytes. Qed.
Print Assumptions C02_sasl_frame_size.
Example C02_frame_example : frame_valid (FR_Transfer a_transfer) /\ frame_memo_ok (FR_Transfer a_transfer) /\
  frame_headers (FR_Transfer a_transfer) = 0 /\ amqp_frame_size (MkAmqpFrame 1 (FR_Transfer a_transfer)) = 41 /\
  frame_headers headed_transfer = 1 /\ amqp_frame_size (MkAmqpFrame 1 headed_transfer) = 46 /\
  zlen (wbytes (amqp_frame_enc (MkAmqpFrame 1 headed_transfer))) = 43.
Proof.
  split. { cbn. repeat split; try lia; repeat (apply Forall_cons; [unfold byte_ok; lia|]); apply Forall_nil. }
  repeat split; vm_compute; reflexivity.
Qed.

(** ** C07, C10 *)
Theorem C07_frame_prefix : forall md inp rest f, bytes_ok inp -> amqp_frame_decode md inp = Ok (rest, f) ->
  exists ext hdr bs, inp = hdr ++ bs ++ rest /\ wire_header 0 (af_channel_id f) ext hdr /\ frame_decode md bs = Ok ([], af_performative f) /\
    amqp_frame_decode md (hdr ++ bs) = Ok ([], f).
Proof. exact (fun md inp rest f B E => proj2 (amqp_read md inp rest f B E)). Qed.
Print Assumptions C07_frame_prefix.
Theorem C07_sasl_frame_prefix : forall md inp rest f, bytes_ok inp -> sasl_frame_decode md inp = Ok (rest, f) ->
  exists ch ext hdr bs, inp = hdr ++ bs ++ rest /\ wire_header 1 ch ext hdr /\ decode sasl_frame_body_dec md bs = Ok ([], sf_body f) /\
    sasl_frame_decode md (hdr ++ bs) = Ok ([], f).
Proof. exact (fun md inp rest f B E => proj2 (sasl_read md inp rest f B E)). Qed.
Print Assumptions C07_sasl_frame_prefix.
Theorem C10_frame_well_typed : forall md inp rest f, bytes_ok inp -> amqp_frame_decode md inp = Ok (rest, f) ->
  0 <= af_channel_id f < 2 ^ 16 /\ frame_valid (af_performative f) /\ frame_memo_ok (af_performative f) /\ frame_headers (af_performative f) = 0.
Proof. exact (fun md inp rest f B E => proj1 (amqp_read md inp rest f B E)). Qed.
Print Assumptions C10_frame_well_typed.
Theorem C10_sasl_frame_well_typed : forall md inp rest f, bytes_ok inp -> sasl_frame_decode md inp = Ok (rest, f) ->
  s_valid sasl_frame_body_S (sf_body f).
Proof. exact (fun md inp rest f B E => proj1 (sasl_read md inp rest f B E)). Qed.
Print Assumptions C10_sasl_frame_well_typed.
Example C07_frame_example : bytes_ok [2; 0; 0; 7; 0x00; 0x53; 0x17; 0x45; 99] /\
  amqp_frame_decode Debug [2; 0; 0; 7; 0x00; 0x53; 0x17; 0x45; 99] = Ok ([99], MkAmqpFrame 7 (FR_End (MkEnd None))).
Proof. split; [repeat (apply Forall_cons; [unfold byte_ok; lia|]); apply Forall_nil|vm_compute; reflexivity]. Qed.

(** ** C12 *)
Theorem C12_frame_kinds_of_panic : forall md inp p, amqp_frame_decode md inp = Panic p -> possible_panic md p.
Proof. exact amqp_panic. Qed.
Print Assumptions C12_frame_kinds_of_panic.
Theorem C12_sasl_frame_kinds_of_panic : forall md inp p, sasl_frame_decode md inp = Panic p -> possible_panic md p.
Proof. exact sasl_panic. Qed.
Print Assumptions C12_sasl_frame_kinds_of_panic.
(** An open frame whose properties are cut short, and a SASL mechanisms frame with an empty array, in either build; an end
    frame whose list is shorter than its own count, in a debug build. *)
Theorem C12_frame_refuted : exists i1 i2 i3, bytes_ok i1 /\ bytes_ok i2 /\ bytes_ok i3 /\
  amqp_frame_decode Debug i1 = Panic PSlice /\ amqp_frame_decode Release i1 = Panic PSlice /\
  sasl_frame_decode Debug i2 = Panic PSlice /\ sasl_frame_decode Release i2 = Panic PSlice /\
  amqp_frame_decode Debug i3 = Panic PArith.
Proof. exact frame_panics_refuted. Qed.
Print Assumptions C12_frame_refuted.

(** ** C22 *)
Theorem C22_frame_named : forall md a label r, In a frame_alts -> wire_label (d_code (a_D a)) (d_name (a_D a)) label ->
  frame_decode md (0x00 :: label ++ r) = map_res (a_inj a) (d_inner (a_D a) md r).
Proof. exact frame_named. Qed.
Print Assumptions C22_frame_named.
Theorem C22_frame_other : forall md d label r, wire_descriptor d label -> d <> DUlong 0 -> Forall (fun a => ~ names (a_D a) d) frame_alts ->
  frame_decode md (0x00 :: label ++ r) = Err (EInvalidDescriptor d).
Proof. exact frame_other. Qed.
Print Assumptions C22_frame_other.
(** Nothing at all is the empty frame, and only that. *)
Theorem C22_frame_empty : forall md bs rest f, frame_decode md bs = Ok (rest, f) -> (f = FR_Empty <-> bs = []).
Proof. exact frame_empty. Qed.
Print Assumptions C22_frame_empty.
Theorem C22_frame_covers : forall f, f = FR_Empty \/ exists a x, In a frame_alts /\ f = a_inj a x.
Proof. exact frame_covers. Qed.
Print Assumptions C22_frame_covers.
(** Every encoding the standard allows for a performative is read as that performative. *)
Theorem C22_frame_accepts : forall md f bs rest, wire_frame f bs -> frame_decodable f -> (takes_rest f -> rest = []) ->
  frame_decode md (bs ++ rest) = Ok (rest, f).
Proof. exact frame_accepts. Qed.
Print Assumptions C22_frame_accepts.
Example C22_frame_example :
  map (fun a => (d_code (a_D a), d_name (a_D a))) frame_alts =
    [(0x10, "amqp:open:list"); (0x11, "amqp:begin:list"); (0x12, "amqp:attach:list"); (0x13, "amqp:flow:list"); (0x14, "amqp:transfer:list");
     (0x15, "amqp:disposition:list"); (0x16, "amqp:detach:list"); (0x17, "amqp:end:list"); (0x18, "amqp:close:list")] /\
  wire_frame (FR_End (MkEnd None)) [0x00; 0x80; 0; 0; 0; 0; 0; 0; 0; 0x17; 0xc0; 2; 1; 0x40] /\ frame_decodable (FR_End (MkEnd None)) /\
  frame_decode Debug [0x00; 0x53; 0x25; 0x45] = Err (EInvalidDescriptor (DUlong 0x25)).
Proof.
  split; [reflexivity|]. split.
  { cbn [wire_frame the_alternative frame_alts a_prj a_D]. exists [0x80; 0; 0; 0; 0; 0; 0; 0; 0x17], [0xc0; 2; 1; 0x40].
    split; [left; exact (WUL_64 0x17 ltac:(lia))|]. split; [|reflexivity]. exists [[0x40]].
    split; [repeat split|]. exact (WLI_8 1 [0x40] ltac:(lia) ltac:(cbn; lia)). }
  split; [cbn; tauto|vm_compute; reflexivity].
Qed.

(** ** C31 *)
(** With a well-formed header the extended header makes no difference. *)
Theorem C31_header_accepted : forall md ch ext hdr body, wire_header 0 ch ext hdr ->
  amqp_frame_decode md (hdr ++ body) = ('(rest, p) <- frame_decode md body ;; Ok (rest, MkAmqpFrame ch p)).
Proof. exact amqp_extended. Qed.
Print Assumptions C31_header_accepted.
Theorem C31_sasl_header_accepted : forall md ch ext hdr body, wire_header 1 ch ext hdr ->
  sasl_frame_decode md (hdr ++ body) = map_res MkSaslFrame (decode sasl_frame_body_dec md body).
Proof. exact sasl_extended. Qed.
Print Assumptions C31_sasl_header_accepted.
(** Any other header is refused with the error that tells what is wrong with it. *)
Theorem C31_header_refused : forall md inp e, (bad_header 0 inp e -> amqp_frame_decode md inp = Err e) /\
  (bad_header 1 inp e -> sasl_frame_decode md inp = Err e).
Proof. exact (fun md inp e => conj (amqp_bad_header md inp e) (sasl_bad_header md inp e)). Qed.
Print Assumptions C31_header_refused.
Theorem C31_cases : forall type inp, bytes_ok inp ->
  (exists ch ext hdr body, inp = hdr ++ body /\ wire_header type ch ext hdr) \/ exists e, bad_header type inp e.
Proof. exact header_cases. Qed.
Print Assumptions C31_cases.
Example C31_example : wire_header 0 513 [0xaa; 0xbb; 0xcc; 0xdd] [3; 0; 2; 1; 0xaa; 0xbb; 0xcc; 0xdd] /\
  amqp_frame_decode Debug ([3; 0; 2; 1; 0xaa; 0xbb; 0xcc; 0xdd] ++ [0x00; 0x53; 0x18; 0x45]) = Ok ([], MkAmqpFrame 513 (FR_Close (MkClose None))) /\
  bad_header 0 [2; 1; 0; 0] (EUnexpectedFrameType 1) /\ bad_header 0 [1; 0; 0; 0] EInvalidSize.
Proof.
  split; [exact (WH 0 3 513 [0xaa; 0xbb; 0xcc; 0xdd] ltac:(lia) ltac:(lia) eq_refl)|]. split; [vm_compute; reflexivity|].
  split; right; do 3 eexists; (split; [reflexivity|]); (split; [cbn; lia|]); [left|right]; (split; [easy|]); [reflexivity|].
  left. split; [lia|reflexivity].
Qed.

(** ** C32 *)
Theorem C32_frame_layout : forall ch f, wbytes (amqp_frame_enc (MkAmqpFrame ch f)) =
  be4 (8 + frame_size f) ++ 2 :: 0 :: be2 ch ++ frame_bytes f.
Proof. exact amqp_layout. Qed.
Print Assumptions C32_frame_layout.
Theorem C32_sasl_frame_layout : forall b, wbytes (sasl_frame_enc (MkSaslFrame b)) =
  be4 (8 + s_size sasl_frame_body_S b) ++ 2 :: 1 :: be2 0 ++ s_bytes sasl_frame_body_S b.
Proof. exact sasl_layout. Qed.
Print Assumptions C32_sasl_frame_layout.
Theorem C32_frame_round_trip : forall md ch f, 0 <= ch < 2 ^ 16 -> frame_sendable f ->
  exists body, wbytes (amqp_frame_enc (MkAmqpFrame ch f)) = be4 (4 + zlen body) ++ body /\ 4 <= zlen body /\ 4 + zlen body < 2 ^ 32 /\
    amqp_frame_size (MkAmqpFrame ch f) = 4 + zlen body /\ amqp_frame_decode md body = Ok ([], MkAmqpFrame ch (frame_canon f)).
Proof. exact amqp_round_trip. Qed.
Print Assumptions C32_frame_round_trip.
Theorem C32_sasl_frame_round_trip : forall md b, sasl_sendable b ->
  exists body, wbytes (sasl_frame_enc (MkSaslFrame b)) = be4 (4 + zlen body) ++ body /\ 4 <= zlen body /\ 4 + zlen body < 2 ^ 32 /\
    sasl_frame_size (MkSaslFrame b) = 4 + zlen body /\
    sasl_frame_decode md body = Ok ([], MkSaslFrame (s_canon sasl_frame_body_S b)).
Proof. exact sasl_round_trip. Qed.
Print Assumptions C32_sasl_frame_round_trip.
(** Performatives are encoded the way the standard says. *)
Theorem C32_frame_conforms : forall f, frame_valid f -> frame_memo_ok f -> frame_encodable f -> frame_size f < 2 ^ 32 ->
  wire_frame (frame_canon f) (frame_bytes f).
Proof. exact frame_emits. Qed.
Print Assumptions C32_frame_conforms.
(** A transfer with a message that has a header section announces 3 bytes more than are sent. *)
Theorem C32_length_refuted : exists ch f rest, frame_valid f /\ frame_memo_ok f /\
  wbytes (amqp_frame_enc (MkAmqpFrame ch f)) = be4 (zlen (wbytes (amqp_frame_enc (MkAmqpFrame ch f))) + 3) ++ rest.
Proof. exact frame_length_refuted. Qed.
Print Assumptions C32_length_refuted.
Example C32_example : frame_sendable (FR_Transfer a_transfer) /\ frame_canon (FR_Transfer a_transfer) = FR_Transfer a_transfer /\
  wbytes (amqp_frame_enc (MkAmqpFrame 1 (FR_Transfer a_transfer))) =
    [0; 0; 0; 41; 2; 0; 0; 1; 0; 0x53; 0x14; 0xc0; 25; 11; 0x52; 3; 0x70; 0; 0; 1; 44; 0xa0; 2; 1; 2; 0x40; 0x41; 0x42; 0x40; 0; 0x53; 0x24; 0xc0; 1; 0;
     0x42; 0x42; 0x41; 9; 8; 7].
Proof.
  split; [|split; [reflexivity|vm_compute; reflexivity]]. split.
  { cbn. repeat split; try lia; repeat (apply Forall_cons; [unfold byte_ok; lia|]); apply Forall_nil. }
  split; [exact I|]. split; [reflexivity|]. split; [cbn; repeat split; try lia|]. split; [vm_compute; reflexivity|]. cbn. repeat split; try lia.
Qed.
Example C32_sasl_example : sasl_sendable a_sasl /\ s_canon sasl_frame_body_S a_sasl = a_sasl /\
  wbytes (sasl_frame_enc (MkSaslFrame a_sasl)) = [0; 0; 0; 19; 2; 1; 0; 0; 0; 0x53; 0x44; 0xc0; 6; 2; 0x50; 0; 0xa0; 1; 5].
Proof.
  split; [|split; [reflexivity|vm_compute; reflexivity]].
  repeat split; try (cbn; tauto); try (vm_compute; reflexivity). cbn. repeat (apply Forall_cons; [unfold byte_ok; lia|]); apply Forall_nil.
Qed.

(** ** C41 *)
Theorem C41_frame_terminates : forall md inp, amqp_frame_decode md inp <> Oof /\ sasl_frame_decode md inp <> Oof.
Proof. exact (fun md inp => conj (amqp_total md inp) (sasl_total md inp)). Qed.
Print Assumptions C41_frame_terminates.

(** ** C43 *)
(** Whatever transfer is read, its payload is the last part of the input, unchanged; and any other bytes there would have been
    the payload instead, everything else being the same. *)
Theorem C43_payload_received : forall md inp rest v, frame_decode md inp = Ok (rest, FR_Transfer v) ->
  rest = [] /\ exists hd, inp = hd ++ transfer_payload v /\
    forall q, frame_decode md (hd ++ q) = Ok ([], FR_Transfer (transfer_of (transfer_to v) (received_payload q))).
Proof. exact transfer_verbatim. Qed.
Print Assumptions C43_payload_received.
(** The body is appended to the encoding of the transfer without body, and counted. *)
Theorem C43_payload_sent : forall v, frame_bytes (FR_Transfer v) = frame_bytes (FR_Transfer (transfer_of (transfer_to v) None)) ++ transfer_payload v.
Proof. exact transfer_appends. Qed.
Print Assumptions C43_payload_sent.
Theorem C43_payload_counted : forall v, frame_valid (FR_Transfer v) -> frame_memo_ok (FR_Transfer v) -> frame_headers (FR_Transfer v) = 0 ->
  frame_size (FR_Transfer v) = frame_size (FR_Transfer (transfer_of (transfer_to v) None)) + zlen (transfer_payload v).
Proof. exact transfer_counts. Qed.
Print Assumptions C43_payload_counted.
(** A transfer with an empty body and one without look the same; a body received is never empty. *)
Theorem C43_empty_is_absent : forall r, frame_bytes (FR_Transfer (transfer_of r (Some (TBData [])))) = frame_bytes (FR_Transfer (transfer_of r None)).
Proof. exact empty_is_absent. Qed.
Print Assumptions C43_empty_is_absent.
Theorem C43_received_body : forall md inp rest v, frame_decode md inp = Ok (rest, FR_Transfer v) ->
  transfer_body_f v = received_payload (transfer_payload v).
Proof. exact received_body. Qed.
Print Assumptions C43_received_body.
(** A message given as the body comes back as bytes: the bytes of its encoding. *)
Theorem C43_message_body : forall md v, frame_sendable (FR_Transfer v) ->
  exists w, frame_decode md (frame_bytes (FR_Transfer v)) = Ok ([], FR_Transfer w) /\ transfer_body_f w = received_payload (transfer_payload v).
Proof. exact transfer_body_received. Qed.
Print Assumptions C43_message_body.
Example C43_example : transfer_payload a_transfer = [9; 8; 7] /\
  frame_decode Debug (frame_bytes (FR_Transfer a_transfer)) = Ok ([], FR_Transfer a_transfer) /\
  frame_decode Debug (frame_bytes (FR_Transfer (transfer_of (transfer_to a_transfer) None))) = Ok ([], FR_Transfer (transfer_of (transfer_to a_transfer) None)).
Proof. repeat split; vm_compute; reflexivity. Qed.

(** ** C57 *)
(** [Transfer] decoded on its own: exactly what the frame decoder reads as a transfer. *)
Theorem C57_same_as_frame : forall md inp r v, decode transfer_dec md inp = Ok (r, v) <-> frame_decode md inp = Ok (r, FR_Transfer v).
Proof. exact transfer_dec_frame. Qed.
Print Assumptions C57_same_as_frame.
Theorem C57_round_trip : forall md v, frame_sendable (FR_Transfer v) ->
  exists w, decode (c_D transfer_C) md (wbytes (e_enc (c_E transfer_C) v)) = Ok ([], w) /\ FR_Transfer w = frame_canon (FR_Transfer v).
Proof. exact transfer_dec_trip. Qed.
Print Assumptions C57_round_trip.
Theorem C57_other_descriptors : forall md d label r, wire_descriptor d label -> d <> DUlong 0 -> ~ names transfer_D d ->
  decode transfer_dec md (0x00 :: label ++ r) = Err (EInvalidDescriptor d).
Proof. exact transfer_dec_other. Qed.
Print Assumptions C57_other_descriptors.
Theorem C57_size : forall v, e_size (c_E transfer_C) v = frame_size (FR_Transfer v) /\ wbytes (e_enc (c_E transfer_C) v) = frame_bytes (FR_Transfer v).
Proof. exact (fun v => conj eq_refl eq_refl). Qed.
Print Assumptions C57_size.
Example C57_example : decode transfer_dec Debug (frame_bytes (FR_Transfer a_transfer)) = Ok ([], a_transfer) /\
  decode transfer_dec Debug [0x00; 0x53; 0x18; 0x45] = Err (EInvalidDescriptor (DUlong 0x18)).
Proof. split; vm_compute; reflexivity. Qed.
