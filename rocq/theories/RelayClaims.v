(** The claims about values that were received and are sent on: C59 of properties.jsonl.
    The vocabulary is in TypeSpec, CompositeSpec, AllTypes, CodecSpec, MessageSpec, FrameSpec and StreamSpec. *)

From Coq Require Import String.
From Verif Require Import Io Utf8Spec Utf8Facts Valid Wire TypeSpec CompositeSpec AllTypes CodecSpec MessageSpec FrameSpec StreamSpec
  RelayFacts FrameRelayFacts.
Open Scope string_scope.
Open Scope list_scope.
Open Scope Z_scope.

(** ** C59 *)
Theorem C59_resend : forall T (S : tspec T), amqp_type S -> forall md md' inp rest v rest', bytes_ok inp -> decode (s_dec S) md inp = Ok (rest, v) ->
  s_encodable S v -> s_size S v < 2 ^ 32 -> s_decodable S (s_canon S v) -> decode (s_dec S) md' (s_bytes S v ++ rest') = Ok (rest', v).
Proof. exact (@resend). Qed.
Print Assumptions C59_resend.
(** The encoding of what comes back is the encoding that was sent. *)
Theorem C59_second_encoding : forall T (S : tspec T), amqp_type S -> forall md v rest, s_valid S v -> s_encodable S v -> s_size S v < 2 ^ 32 ->
  s_decodable S (s_canon S v) ->
  exists w, decode (s_dec S) md (s_bytes S v ++ rest) = Ok (rest, w) /\ s_size S w = s_size S v /\ s_bytes S w = s_bytes S v.
Proof. exact (@second_encoding). Qed.
Print Assumptions C59_second_encoding.
Theorem C59_canonical_encoding : forall T (S : tspec T), amqp_type S -> forall v,
  s_size S (s_canon S v) = s_size S v /\ s_bytes S (s_canon S v) = s_bytes S v.
Proof. exact (@canonical_encoding). Qed.
Print Assumptions C59_canonical_encoding.
(** For instants nothing needs to be supposed: what is misread once (C30) is stable from then on. *)
Theorem C59_timestamp : forall md md' inp rest t rest', bytes_ok inp -> decode datetime_dec md inp = Ok (rest, t) ->
  decode datetime_dec md' (s_bytes datetime_S t ++ rest') = Ok (rest', t).
Proof. exact timestamp_resend. Qed.
Print Assumptions C59_timestamp.
(** A received value that is refused once it is sent on: descriptor 0 is read in its long form and written in its short form. *)
Theorem C59_descriptor_zero_refuted : exists inp v, bytes_ok inp /\ list_free v /\ variant_size v < 2 ^ 32 /\
  (forall md, decode variant_dec md inp = Ok ([], v)) /\
  (forall md, decode variant_dec md (s_bytes variant_S v) = Err (EInvalidFormatCode 0x44)).
Proof.
  exists (0x00 :: 0x80 :: be8 0 ++ [0x40]), (VDescribed (DUlong 0) VNull).
  split; [vm_compute; repeat constructor; congruence|]. split; [exact I|]. split; [reflexivity|]. split; intros []; vm_compute; reflexivity.
Qed.
Print Assumptions C59_descriptor_zero_refuted.
(** Long forms, a described type and a name for an open enumeration: the bytes differ, the value stays. *)
Definition C59_input : bytes := 0x00 :: 0xa3 :: 14 :: s2b "amqp:open:list" ++ 0xd0 :: be4 17 ++ be4 3 ++ 0xb1 :: be4 2 ++ s2b "id" ++ [0x40; 0x70; 0; 0; 0; 9].
Example C59_example : amqp_type open_S /\ bytes_ok C59_input /\
  (exists v, decode (s_dec open_S) Debug C59_input = Ok ([], v) /\ s_encodable open_S v /\ s_size open_S v < 2 ^ 32 /\
     s_decodable open_S (s_canon open_S v) /\ s_bytes open_S v <> C59_input /\ decode (s_dec open_S) Release (s_bytes open_S v) = Ok ([], v)).
Proof.
  split; [apply (ty_composite open_K); cbv [all_composites In]; repeat (first [left; reflexivity|right])|].
  split; [vm_compute; repeat constructor; congruence|].
  eexists. split; [vm_compute; reflexivity|]. repeat split; vm_compute; congruence.
Qed.

(** ** C59: frames, messages and streams *)
Theorem C59_frame_resend : forall md md' inp rest f, bytes_ok inp -> amqp_frame_decode md inp = Ok (rest, f) ->
  frame_encodable (af_performative f) -> amqp_frame_size f < 2 ^ 32 -> frame_decodable (frame_canon (af_performative f)) ->
  frame_of amqp_frame_decode md' f (wbytes (amqp_frame_enc f)).
Proof. exact (fun md md' inp rest f B E N L D => proj2 (proj2 (frame_resend md md' inp rest f B E N L D))). Qed.
Print Assumptions C59_frame_resend.
Theorem C59_sasl_frame_resend : forall md md' inp rest f, bytes_ok inp -> sasl_frame_decode md inp = Ok (rest, f) ->
  s_encodable sasl_frame_body_S (sf_body f) -> sasl_frame_size f < 2 ^ 32 -> s_decodable sasl_frame_body_S (s_canon sasl_frame_body_S (sf_body f)) ->
  frame_of sasl_frame_decode md' f (wbytes (sasl_frame_enc f)).
Proof. exact (fun md md' inp rest f B E N L D => proj2 (proj2 (sasl_resend md md' inp rest f B E N L D))). Qed.
Print Assumptions C59_sasl_frame_resend.
(** A relay: frames received in any chunks, sent on, and received again in any chunks. *)
Theorem C59_stream : forall md md' chunks st items b, Forall bytes_ok chunks ->
  feed_all amqp_frame_decode md stream_new chunks = (st, map (fun i => EvItem (snd i)) items) ->
  Forall (fun i => 0 <= fst i /\ frame_encodable (af_performative (snd i)) /\ amqp_frame_size (snd i) < 2 ^ 32 /\
                   frame_decodable (frame_canon (af_performative (snd i)))) items -> buf_ok b -> b_data b = [] ->
  exists b', send_all amqp_frame_size amqp_frame_enc items b = Some b' /\
    forall chunks', concat chunks' = b_data b' -> feed_all amqp_frame_decode md' stream_new chunks' = (stream_new, map (fun i => EvItem (snd i)) items).
Proof. exact amqp_relayed. Qed.
Print Assumptions C59_stream.
Theorem C59_sasl_stream : forall md md' chunks st items b, Forall bytes_ok chunks ->
  feed_all sasl_frame_decode md stream_new chunks = (st, map (fun i => EvItem (snd i)) items) ->
  Forall (fun i => 0 <= fst i /\ s_encodable sasl_frame_body_S (sf_body (snd i)) /\ sasl_frame_size (snd i) < 2 ^ 32 /\
                   s_decodable sasl_frame_body_S (s_canon sasl_frame_body_S (sf_body (snd i)))) items -> buf_ok b -> b_data b = [] ->
  exists b', send_all sasl_frame_size sasl_frame_enc items b = Some b' /\
    forall chunks', concat chunks' = b_data b' -> feed_all sasl_frame_decode md' stream_new chunks' = (stream_new, map (fun i => EvItem (snd i)) items).
Proof. exact sasl_relayed. Qed.
Print Assumptions C59_sasl_stream.
Theorem C59_message_resend : forall md md' inp r m, bytes_ok inp -> message_decode md inp = Ok (r, m) -> Forall section_sendable (message_sections m) ->
  mb_data (m_body m) <> [] \/ mb_value (m_body m) <> None -> exists r', message_decode md' (message_bytes m) = Ok (r', m).
Proof. exact message_resend. Qed.
Print Assumptions C59_message_resend.
(** A message without a body gets one when it is sent on. *)
Theorem C59_empty_message_refuted : exists inp m, bytes_ok inp /\ Forall section_sendable (message_sections m) /\
  (exists r, message_decode Debug inp = Ok (r, m)) /\
  (exists r m', message_decode Debug (message_bytes m) = Ok (r, m') /\ mb_data (m_body m) = [] /\ mb_data (m_body m') = [[]]).
Proof.
  exists [0x00; 0x53; 0x73; 0x45], (message_of [SEC_Properties (MkProperties None None None None None None None None None None None None None)]).
  split; [repeat constructor; vm_compute; congruence|]. split.
  - repeat apply Forall_cons; try apply Forall_nil; (split; [|split; [|split]]); vm_compute; repeat (first [split|exact I|congruence|constructor]).
  - split; eexists; [vm_compute; reflexivity|]. eexists. split; [vm_compute; reflexivity|]. split; reflexivity.
Qed.
Print Assumptions C59_empty_message_refuted.
(** Two frames, a transfer with a payload and an empty frame, received byte by byte. *)
Definition C59_stream_input : bytes :=
  be4 24 ++ [2; 0; 0; 5; 0x00; 0x80] ++ be8 0x14 ++ [0xc0; 2; 1; 0x43; 7; 8] ++ be4 12 ++ [3; 0; 0; 0; 1; 2; 3; 4].
Definition C59_items : list (Z * amqp_frame) :=
  [(0, MkAmqpFrame 5 (FR_Transfer (MkTransfer 0 None None None None false None None false false false (Some (TBData [7; 8])))));
   (3, MkAmqpFrame 0 FR_Empty)].
Example C59_stream_example :
  let chunks := map (fun x => [x]) C59_stream_input in
  Forall bytes_ok chunks /\ feed_all amqp_frame_decode Release stream_new chunks = (stream_new, map (fun i => EvItem (snd i)) C59_items) /\
  Forall (fun i => 0 <= fst i /\ frame_encodable (af_performative (snd i)) /\ amqp_frame_size (snd i) < 2 ^ 32 /\
                   frame_decodable (frame_canon (af_performative (snd i)))) C59_items /\
  (exists b', send_all amqp_frame_size amqp_frame_enc C59_items (MkBuf 0 []) = Some b' /\ b_data b' <> C59_stream_input /\
     feed_all amqp_frame_decode Debug stream_new [b_data b'] = (stream_new, map (fun i => EvItem (snd i)) C59_items)).
Proof.
  cbv zeta. split; [repeat constructor; vm_compute; congruence|]. split; [vm_compute; reflexivity|]. split.
  - repeat apply Forall_cons; try apply Forall_nil; (split; [|split; [|split]]); vm_compute; repeat (first [split|exact I|congruence|constructor]).
  - eexists. split; [vm_compute; reflexivity|]. split; [vm_compute; congruence|vm_compute; reflexivity].
Qed.
Example C59_message_example : let inp := [0x00; 0x53; 0x75; 0xb0; 0; 0; 0; 1; 9] in
  bytes_ok inp /\ exists m, message_decode Debug inp = Ok (inp, m) /\ Forall section_sendable (message_sections m) /\ mb_data (m_body m) <> [] /\
    message_bytes m = [0x00; 0x53; 0x75; 0xa0; 1; 9].
Proof.
  cbv zeta. split; [repeat constructor; vm_compute; congruence|]. eexists. split; [vm_compute; reflexivity|]. split; [|split; [vm_compute; congruence|vm_compute; reflexivity]].
  repeat apply Forall_cons; try apply Forall_nil; (split; [|split; [|split]]); vm_compute; repeat (first [split|exact I|congruence|constructor]).
Qed.
