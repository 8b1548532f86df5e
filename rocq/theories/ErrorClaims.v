(** The claims about errors, C70 and C71 of properties.jsonl.  The vocabulary is in ErrorSpec; [amqp_type] is every type with a decoder
    (AllTypes), [panic_free] is in CodecSpec. *)

From Coq Require Import String.
From Verif Require Import Frames Utf8Spec Valid Wire TypeSpec CompositeSpec AllTypes CodecSpec MessageSpec FrameSpec ErrorSpec ErrorFacts.
Open Scope string_scope.
Open Scope list_scope.
Open Scope Z_scope.

(** ** C70: an error other than [Incomplete] stays whatever bytes follow, and so does a panic other than an index out of range. *)
Theorem C70_final : forall T (S : tspec T), amqp_type S -> forall md inp more e,
  decode (s_dec S) md inp = Err e -> final e -> decode (s_dec S) md (inp ++ more) = Err e.
Proof. exact (@type_final). Qed.
Print Assumptions C70_final.
Theorem C70_amqp_final : forall md inp more e, amqp_frame_decode md inp = Err e -> final e -> amqp_frame_decode md (inp ++ more) = Err e.
Proof. exact amqp_final. Qed.
Print Assumptions C70_amqp_final.
Theorem C70_sasl_final : forall md inp more e, sasl_frame_decode md inp = Err e -> final e -> sasl_frame_decode md (inp ++ more) = Err e.
Proof. exact sasl_final. Qed.
Print Assumptions C70_sasl_final.
Theorem C70_message_final : forall md inp more e, message_decode md inp = Err e -> final e -> message_decode md (inp ++ more) = Err e.
Proof. exact message_final. Qed.
Print Assumptions C70_message_final.
Theorem C70_panic_final : forall T (S : tspec T), amqp_type S -> forall md inp more p,
  decode (s_dec S) md inp = Panic p -> final_panic p -> decode (s_dec S) md (inp ++ more) = Panic p.
Proof. exact (@type_final_panic). Qed.
Print Assumptions C70_panic_final.
Theorem C70_amqp_panic_final : forall md inp more p, amqp_frame_decode md inp = Panic p -> final_panic p -> amqp_frame_decode md (inp ++ more) = Panic p.
Proof. exact amqp_final_panic. Qed.
Print Assumptions C70_amqp_panic_final.
Theorem C70_sasl_panic_final : forall md inp more p, sasl_frame_decode md inp = Panic p -> final_panic p -> sasl_frame_decode md (inp ++ more) = Panic p.
Proof. exact sasl_final_panic. Qed.
Print Assumptions C70_sasl_panic_final.
Theorem C70_message_panic_final : forall md inp more p, message_decode md inp = Panic p -> final_panic p -> message_decode md (inp ++ more) = Panic p.
Proof. exact message_final_panic. Qed.
Print Assumptions C70_message_panic_final.
(** [Incomplete] always carries a number, and nothing that takes fewer bytes will do. *)
Theorem C70_incomplete : forall T (S : tspec T), amqp_type S -> forall md inp o, decode (s_dec S) md inp = Err (EIncomplete o) ->
  exists n, o = Some n /\ 1 <= n /\ forall more rest v, decode (s_dec S) md (inp ++ more) = Ok (rest, v) -> n <= zlen (inp ++ more) - zlen rest.
Proof. exact (@type_waits). Qed.
Print Assumptions C70_incomplete.
Theorem C70_amqp_incomplete : forall md inp o, amqp_frame_decode md inp = Err (EIncomplete o) ->
  exists n, o = Some n /\ 1 <= n /\ forall more rest v, amqp_frame_decode md (inp ++ more) = Ok (rest, v) -> n <= zlen (inp ++ more) - zlen rest.
Proof. exact amqp_waits. Qed.
Print Assumptions C70_amqp_incomplete.
Theorem C70_sasl_incomplete : forall md inp o, sasl_frame_decode md inp = Err (EIncomplete o) ->
  exists n, o = Some n /\ 1 <= n /\ forall more rest v, sasl_frame_decode md (inp ++ more) = Ok (rest, v) -> n <= zlen (inp ++ more) - zlen rest.
Proof. exact sasl_waits. Qed.
Print Assumptions C70_sasl_incomplete.
Theorem C70_message_incomplete : forall md inp o, message_decode md inp = Err (EIncomplete o) ->
  exists n, o = Some n /\ 1 <= n /\ forall more rest v, message_decode md (inp ++ more) = Ok (rest, v) -> n <= zlen (inp ++ more).
Proof. exact message_waits. Qed.
Print Assumptions C70_message_incomplete.
(** A value cut anywhere asks for more, and never for more than the whole takes, unless an index runs out of range. *)
Theorem C70_cut : forall T (S : tspec T), amqp_type S -> forall md a b rest v,
  decode (s_dec S) md (a ++ b) = Ok (rest, v) -> zlen rest < zlen b -> awaits (decode (s_dec S) md a) (zlen (a ++ b) - zlen rest).
Proof. exact (@type_cut). Qed.
Print Assumptions C70_cut.
Theorem C70_sasl_cut : forall md a b rest v, sasl_frame_decode md (a ++ b) = Ok (rest, v) -> zlen rest < zlen b ->
  awaits (sasl_frame_decode md a) (zlen (a ++ b) - zlen rest).
Proof. exact sasl_cut. Qed.
Print Assumptions C70_sasl_cut.
(** An AMQP frame is whole, or what is there is the header alone or less of the payload of a transfer, or it asks for more. *)
Theorem C70_amqp_cut : forall md a b rest v, amqp_frame_decode md (a ++ b) = Ok (rest, v) ->
  (exists i, amqp_frame_decode md a = Ok (i, v) /\ rest = i ++ b) \/ (exists w, amqp_frame_decode md a = Ok ([], w) /\ shortened a w v) \/
  awaits (amqp_frame_decode md a) (zlen (a ++ b) - zlen rest).
Proof. exact amqp_cut. Qed.
Print Assumptions C70_amqp_cut.
(** A message is cut between two sections, and then the sections that are there are read, or it asks for more. *)
Theorem C70_message_cut : forall md a b r m, message_decode md (a ++ b) = Ok (r, m) ->
  (exists i sections later, message_decode md a = Ok (i, message_of sections) /\ m = message_of (sections ++ later) /\ (later = [] <-> b = [])) \/
  awaits (message_decode md a) (zlen (a ++ b)).
Proof. exact message_cut. Qed.
Print Assumptions C70_message_cut.
Theorem C70_truncated : forall T (S : tspec T), amqp_type S -> forall md v a b,
  s_valid S v -> s_encodable S v -> s_size S v < 2 ^ 32 -> s_decodable S (s_canon S v) ->
  s_bytes S v = a ++ b -> b <> [] -> awaits (decode (s_dec S) md a) (s_size S v).
Proof. exact (@type_truncated). Qed.
Print Assumptions C70_truncated.
Theorem C70_truncated_panic_free : forall T (S : tspec T), amqp_type S -> panic_free S -> forall md v a b,
  s_valid S v -> s_encodable S v -> s_size S v < 2 ^ 32 -> s_decodable S (s_canon S v) ->
  s_bytes S v = a ++ b -> b <> [] -> exists n, decode (s_dec S) md a = Err (EIncomplete (Some n)) /\ 1 <= n <= s_size S v.
Proof. exact (@truncated_free). Qed.
Print Assumptions C70_truncated_panic_free.
(** The converse fails: a map of no bytes that announces an entry asks for one more byte however many follow. *)
Theorem C70_incomplete_refuted : exists inp, amqp_type fields_S /\ forall md more, decode (s_dec fields_S) md (inp ++ more) = Err (EIncomplete (Some 1)).
Proof. exact (ex_intro _ [0xc1; 1; 2] (conj (ty_map _ _ _ _ _ ty_symbol ty_variant) hollow_map)). Qed.
Print Assumptions C70_incomplete_refuted.

(** A symbol in a string: wrong for good.  A list shorter than its own count: in a debug build a panic for good.  A string of three bytes
    of which one is there.  A map of which two bytes of three are there: the index. *)
Example C70_final_example : decode (s_dec symbol_S) Debug [0xa1] = Err (EInvalidFormatCode 0xa1) /\ final (EInvalidFormatCode 0xa1).
Proof. split; [vm_compute; reflexivity|exact I]. Qed.
Example C70_panic_example : decode (s_dec end_S) Debug [0x00; 0x53; 0x17; 0xc0; 0; 0] = Panic PArith /\ final_panic PArith.
Proof. split; [vm_compute; reflexivity|discriminate]. Qed.
Example C70_incomplete_example : decode (s_dec bstr_S) Debug [0xa1; 3; 97] = Err (EIncomplete (Some 3)) /\
  decode (s_dec bstr_S) Debug ([0xa1; 3; 97] ++ [98; 99; 7]) = Ok ([7], [97; 98; 99]) /\ zlen [7] < zlen [98; 99; 7].
Proof. repeat split; vm_compute; reflexivity. Qed.
Example C70_index_example : decode (s_dec fields_S) Debug [0xc1; 6; 2; 0xa3; 1] = Panic PSlice /\
  decode (s_dec fields_S) Debug ([0xc1; 6; 2; 0xa3; 1] ++ [97; 0x54; 7]) = Ok ([], [(SByteStr [97], VInt 7)]).
Proof. split; vm_compute; reflexivity. Qed.
Example C70_frame_example : amqp_frame_decode Debug [2; 1] = Err (EIncomplete (Some 4)) /\
  amqp_frame_decode Debug [2; 1; 0; 0] = Err (EUnexpectedFrameType 1) /\ amqp_frame_decode Debug [1; 0; 0; 0] = Err EInvalidSize /\
  amqp_frame_decode Debug [2; 0; 0; 0; 0] = Err (EIncomplete (Some 1)) /\ amqp_frame_decode Debug [2; 0; 0; 0; 0x00; 0x53; 0x17; 0x45] = Ok ([], MkAmqpFrame 0 (FR_End (MkEnd None))).
Proof. repeat split; vm_compute; reflexivity. Qed.
(** A cut SASL frame waits; a cut transfer is a transfer with less payload, or waits; a message whose header is cut; panics of whole frames. *)
Example C70_sasl_example : sasl_frame_decode Debug ([2; 1; 0; 0; 0x00; 0x53; 0x44; 0xc0] ++ [3; 1; 0x50; 0; 9]) = Ok ([9], MkSaslFrame (SB_SaslOutcome (MkSaslOutcome SaslCode_Ok None))) /\
  zlen [9] < zlen [3; 1; 0x50; 0; 9] /\ sasl_frame_decode Debug [2; 1; 0; 0; 0x00; 0x53; 0x44; 0xc0] = Err (EIncomplete (Some 2)) /\
  sasl_frame_decode Release [2; 1; 0; 0; 0x00; 0x53; 0x17] = Err (EInvalidDescriptor (DUlong 0x17)) /\ final (EInvalidDescriptor (DUlong 0x17)) /\
  sasl_frame_decode Debug [2; 1; 0; 0; 0x00; 0x53; 0x44; 0xc0; 0; 1] = Panic PArith.
Proof. repeat split; vm_compute; reflexivity. Qed.
Example C70_transfer_example : let head := [2; 0; 0; 0; 0x00; 0x53; 0x14; 0xc0; 2; 1; 0x43] in
  (exists v, amqp_frame_decode Debug (head ++ [7; 8]) = Ok ([], MkAmqpFrame 0 (FR_Transfer v)) /\ transfer_body_f v = Some (TBData [7; 8])) /\
  (exists v, amqp_frame_decode Debug (head ++ [7]) = Ok ([], MkAmqpFrame 0 (FR_Transfer v)) /\ transfer_body_f v = Some (TBData [7])) /\
  amqp_frame_decode Debug [2; 0; 0; 0; 0x00; 0x53; 0x14; 0xc0; 2; 1] = Err (EIncomplete (Some 1)) /\
  amqp_frame_decode Debug [2; 0; 0; 0; 0x00; 0x53; 0x14; 0xc0; 0; 1] = Panic PArith /\
  amqp_frame_decode Debug [2; 0; 0; 0] = Ok ([], MkAmqpFrame 0 FR_Empty).
Proof. cbv zeta. split; [eexists; split; vm_compute; reflexivity|]. split; [eexists; split; vm_compute; reflexivity|]. repeat split; vm_compute; reflexivity. Qed.
Example C70_truncated_example : amqp_type end_S /\ s_bytes end_S (MkEnd None) = [0x00; 0x53; 0x17; 0xc0] ++ [2; 1; 0x40] /\
  awaits (decode (s_dec end_S) Debug [0x00; 0x53; 0x17; 0xc0]) (s_size end_S (MkEnd None)) /\
  panic_free bstr_S /\ s_valid bstr_S [97] /\ s_bytes bstr_S [97] = [0xa1; 1] ++ [97] /\ decode (s_dec bstr_S) Debug [0xa1; 1] = Err (EIncomplete (Some 1)).
Proof. split; [apply (ty_composite end_K); repeat (first [left; reflexivity|right])|]. split; [vm_compute; reflexivity|].
  split; [right; eexists; split; [vm_compute; reflexivity|vm_compute; split; discriminate]|]. split; [constructor|].
  split; [exists [97]; split; [repeat (apply Forall_cons; [left; lia|]); apply Forall_nil|reflexivity]|]. split; vm_compute; reflexivity. Qed.
Example C70_message_example : message_decode Debug [0x00; 0x53; 0x75; 0xa0] = Err (EIncomplete (Some 1)) /\
  message_decode Debug [0x00; 0x53; 0x75; 0xa1] = Err (EInvalidFormatCode 0xa1) /\ final (EInvalidFormatCode 0xa1) /\
  message_decode Debug [0x00; 0x53; 0x70; 0xc0; 0; 0] = Panic PArith /\ final_panic PArith /\
  message_decode Debug ([0x00; 0x53; 0x75; 0xa0; 1; 7] ++ [0x00; 0x53; 0x75; 0xa0; 0]) = Ok ([0x00; 0x53; 0x75; 0xa0; 0], message_of [SEC_Data [7]; SEC_Data []]) /\
  message_decode Debug [0x00; 0x53; 0x75; 0xa0; 1; 7] = Ok ([0x00; 0x53; 0x75; 0xa0; 1; 7], message_of [SEC_Data [7]]).
Proof. repeat split; try (vm_compute; reflexivity). discriminate. Qed.

(** ** C71: what an error says is true of the input. *)
Theorem C71_says : forall T (S : tspec T), amqp_type S -> forall md inp e, bytes_ok inp -> decode (s_dec S) md inp = Err e -> says inp e.
Proof. exact (@type_says). Qed.
Print Assumptions C71_says.
Theorem C71_amqp : forall md inp e, bytes_ok inp -> amqp_frame_decode md inp = Err e -> frame_says 0x00 inp e.
Proof. exact amqp_says. Qed.
Print Assumptions C71_amqp.
Theorem C71_sasl : forall md inp e, bytes_ok inp -> sasl_frame_decode md inp = Err e -> frame_says 0x01 inp e.
Proof. exact sasl_says. Qed.
Print Assumptions C71_sasl.
Theorem C71_message : forall md inp e, bytes_ok inp -> message_decode md inp = Err e -> says inp e.
Proof. exact message_says. Qed.
Print Assumptions C71_message.
(** Each kind of error, and what is said not to hold of every input. *)
Example C71_values : decode (s_dec char_S) Debug [0x73; 0; 0; 0xd8; 0] = Err (EInvalidChar 0xd800) /\
  decode (s_dec bstr_S) Debug [0xa1; 1; 0xff] = Err EUtf8Error /\
  decode (s_dec link_error_S) Debug [0xa3; 1; 97] = Err (EUnknownEnumOption "LinkError") /\
  decode (s_dec sasl_code_S) Debug [0x50; 9] = Err (EUnknownEnumOption "SaslCode") /\
  decode (s_dec end_S) Debug [0x00; 0x53; 0x99] = Err (EInvalidDescriptor (DUlong 0x99)) /\
  decode (s_dec begin_S) Debug [0x00; 0x53; 0x11; 0x45] = Err (ERequiredFieldOmitted "next_outgoing_id") /\
  decode (s_dec u8_S) Debug [0x51; 0] = Err (EInvalidFormatCode 0x51).
Proof. repeat split; vm_compute; reflexivity. Qed.
Example C71_not_said : ~ says [0x50; 3] (EInvalidFormatCode 0x51) /\ ~ says [0x73; 0; 0; 0; 97] (EInvalidChar 97) /\
  ~ frame_says 0x00 [2; 0; 0; 0] (EUnexpectedFrameType 0) /\ ~ frame_says 0x00 [2; 0; 0; 0] EInvalidSize.
Proof.
  split; [intros [H|[H|[]]]; discriminate|]. split; [intros [_ H]; apply H; left; lia|]. split; [intros [_ H]; now apply H|].
  intros (d & r & [= <- _] & H). lia.
Qed.
