(** The claim about values of 2^32 bytes and more, C72 of properties.jsonl.  The vocabulary is in BoundSpec. *)

From Coq Require Import String.
From Verif Require Import Io Utf8Spec Valid Wire TypeSpec CompositeSpec AllTypes CodecSpec MessageSpec FrameSpec StreamSpec BoundSpec Utf8Facts EqualFrameFacts BoundFacts.
Open Scope string_scope.
Open Scope list_scope.
Open Scope Z_scope.

(** Conditions on values that are given, piece by piece. *)
Ltac parts :=
  lazymatch goal with
  | |- is_utf8 _ => apply ascii_utf8; vm_compute; reflexivity
  | |- _ < _ => vm_compute; reflexivity
  | |- _ <= _ => vm_compute; discriminate
  | |- _ = _ => vm_compute; reflexivity
  | |- True => exact I
  | |- _ /\ _ => split; parts
  | |- Forall _ [] => apply Forall_nil
  | |- Forall _ (_ :: _) => apply Forall_cons; parts
  | |- _ => progress hnf; parts
  end.

(** ** C72: lengths are written modulo 2^32, without an error.  A longer value is cut, and what is left over is read as whatever comes next. *)
Theorem C72_binary : forall md v rest, decode bin_dec md (s_bytes bin_S v ++ rest) = Ok (left_over v ++ rest, cut_off v).
Proof. exact bin_cut. Qed.
Print Assumptions C72_binary.
Theorem C72_binary_exact : forall md v rest, decode bin_dec md (s_bytes bin_S v ++ rest) = Ok (rest, v) <-> zlen v < 2 ^ 32.
Proof. exact bin_exact. Qed.
Print Assumptions C72_binary_exact.
Theorem C72_binary_refuted : exists v, bytes_ok v /\ zlen v = 2 ^ 32 /\ forall md, decode bin_dec md (s_bytes bin_S v) = Ok (v, []).
Proof. exact bin_lost. Qed.
Print Assumptions C72_binary_refuted.
Theorem C72_text : forall md v rest, bytes_ok v ->
  (is_utf8 (cut_off v) -> decode bstr_dec md (s_bytes bstr_S v ++ rest) = Ok (left_over v ++ rest, cut_off v)) /\
  (~ is_utf8 (cut_off v) -> decode bstr_dec md (s_bytes bstr_S v ++ rest) = Err EUtf8Error).
Proof. exact bstr_cut. Qed.
Print Assumptions C72_text.
Theorem C72_text_exact : forall md v rest, is_utf8 v -> decode bstr_dec md (s_bytes bstr_S v ++ rest) = Ok (rest, v) <-> zlen v < 2 ^ 32.
Proof. exact bstr_exact. Qed.
Print Assumptions C72_text_exact.
Theorem C72_string : forall md s rest, bytes_ok (str_bytes s) ->
  (is_utf8 (cut_off (str_bytes s)) -> decode str_dec md (s_bytes str_S s ++ rest) = Ok (left_over (str_bytes s) ++ rest, SByteStr (cut_off (str_bytes s)))) /\
  (~ is_utf8 (cut_off (str_bytes s)) -> decode str_dec md (s_bytes str_S s ++ rest) = Err EUtf8Error).
Proof. exact (fun md s => str_cut md (str_bytes s)). Qed.
Print Assumptions C72_string.
Theorem C72_string_exact : forall md s rest, is_utf8 (str_bytes s) ->
  decode str_dec md (s_bytes str_S s ++ rest) = Ok (rest, SByteStr (str_bytes s)) <-> zlen (str_bytes s) < 2 ^ 32.
Proof. exact (fun md s => str_exact md (str_bytes s)). Qed.
Print Assumptions C72_string_exact.
Theorem C72_symbol : forall md s rest, bytes_ok (str_bytes s) ->
  (is_utf8 (cut_off (str_bytes s)) -> decode symbol_dec md (s_bytes symbol_S s ++ rest) = Ok (left_over (str_bytes s) ++ rest, SByteStr (cut_off (str_bytes s)))) /\
  (~ is_utf8 (cut_off (str_bytes s)) -> decode symbol_dec md (s_bytes symbol_S s ++ rest) = Err EUtf8Error).
Proof. exact (fun md s => symbol_cut md (str_bytes s)). Qed.
Print Assumptions C72_symbol.
Theorem C72_symbol_exact : forall md s rest, is_utf8 (str_bytes s) ->
  decode symbol_dec md (s_bytes symbol_S s ++ rest) = Ok (rest, SByteStr (str_bytes s)) <-> zlen (str_bytes s) < 2 ^ 32.
Proof. exact (fun md s => symbol_exact md (str_bytes s)). Qed.
Print Assumptions C72_symbol_exact.
(** Texts are cut between bytes, so what is left need not be a text. *)
Theorem C72_text_refuted : exists v, is_utf8 v /\ zlen v = 2 ^ 32 + 1 /\ forall md, decode bstr_dec md (s_bytes bstr_S v) = Err EUtf8Error.
Proof. exact text_lost. Qed.
Print Assumptions C72_text_refuted.
Example C72_value_example : zlen [1; 2; 3] < 2 ^ 32 /\ cut_off [1; 2; 3] = [1; 2; 3] /\ left_over [1; 2; 3] = [] /\
  bytes_ok (s2b "abc") /\ is_utf8 (cut_off (s2b "abc")) /\ s_bytes str_S (SStatic (s2b "abc")) = [0xa1; 3] ++ s2b "abc".
Proof. split; [parts|]. split; [parts|]. split; [parts|]. split; [apply is_utf8_bytes_ok; parts|]. split; [change (is_utf8 (s2b "abc")); parts|]. parts. Qed.

(** Frames: the length in front is the length of the frame modulo 2^32; a frame within a payload is read as a frame. *)
Theorem C72_prefix : forall ch f, frame_valid f -> frame_memo_ok f -> frame_headers f = 0 ->
  exists body, amqp_bytes (MkAmqpFrame ch f) = be4 (zlen (amqp_bytes (MkAmqpFrame ch f)) mod 2 ^ 32) ++ body.
Proof. exact frame_prefix. Qed.
Print Assumptions C72_prefix.
Theorem C72_injection : forall md ch t q fs k chunks, amqp_sendable (MkAmqpFrame ch (FR_Transfer (transfer_of t (Some (TBData q))))) -> Forall amqp_sendable fs ->
  zlen (concat (map amqp_bytes fs)) = k * 2 ^ 32 ->
  concat chunks = amqp_bytes (MkAmqpFrame ch (FR_Transfer (transfer_of t (Some (TBData (q ++ concat (map amqp_bytes fs))))))) ->
  feed_all amqp_frame_decode md stream_new chunks =
  (stream_new, map (fun f => EvItem (amqp_received f)) (MkAmqpFrame ch (FR_Transfer (transfer_of t (Some (TBData q)))) :: fs)).
Proof. exact injection. Qed.
Print Assumptions C72_injection.
Theorem C72_smuggled : forall ch t q fs, amqp_sendable (MkAmqpFrame ch (FR_Transfer (transfer_of t (Some (TBData q))))) -> Forall amqp_sendable fs -> fs <> [] ->
  zlen (concat (map amqp_bytes fs)) <= 2 ^ 32 - 64 ->
  exists more last, bytes_ok more /\ zlen more = 2 ^ 32 /\ forall md chunks,
    concat chunks = amqp_bytes (MkAmqpFrame ch (FR_Transfer (transfer_of t (Some (TBData (q ++ more)))))) ->
    feed_all amqp_frame_decode md stream_new chunks =
    (stream_new, map (fun f => EvItem (amqp_received f)) (MkAmqpFrame ch (FR_Transfer (transfer_of t (Some (TBData q)))) :: fs ++ [last])).
Proof. exact smuggled. Qed.
Print Assumptions C72_smuggled.
(** One well-typed transfer, received in Debug and Release as a transfer of one byte, a close, and something else. *)
Theorem C72_frame_refuted : exists ch v, 0 <= ch < 2 ^ 16 /\ frame_valid (FR_Transfer v) /\ frame_memo_ok (FR_Transfer v) /\
  forall md, exists w y, zlen (transfer_payload w) = 1 /\ feed_all amqp_frame_decode md stream_new [amqp_bytes (MkAmqpFrame ch (FR_Transfer v))] =
  (stream_new, [EvItem (MkAmqpFrame ch (FR_Transfer w)); EvItem (MkAmqpFrame 0 (FR_Close (MkClose None))); EvItem y]).
Proof. exact closed. Qed.
Print Assumptions C72_frame_refuted.

(** Messages: sections within the body are read as sections of the message. *)
Theorem C72_message : forall md q secs parts k, bytes_ok q -> zlen q < 2 ^ 32 -> bytes_ok (concat parts) -> zlen (concat parts) = k * 2 ^ 32 ->
  Forall2 (fun bs sec => s_wire section_S sec bs /\ s_decodable section_S sec) parts secs ->
  exists r, message_decode md (message_bytes (with_body (q ++ concat parts))) = Ok (r, message_of (SEC_Data q :: secs)).
Proof. exact message_long. Qed.
Print Assumptions C72_message.
Theorem C72_message_smuggled : forall q secs, bytes_ok q -> zlen q < 2 ^ 32 -> Forall section_sendable secs ->
  zlen (concat (map (s_bytes section_S) secs)) <= 2 ^ 32 - 512 ->
  exists more last, bytes_ok more /\ zlen more = 2 ^ 32 /\ forall md, exists r,
    message_decode md (message_bytes (with_body (q ++ more))) = Ok (r, message_of (SEC_Data q :: map (s_canon section_S) secs ++ [SEC_Data last])).
Proof. exact message_smuggled. Qed.
Print Assumptions C72_message_smuggled.
(** A message with nothing but a body, received with properties: user "root". *)
Theorem C72_message_refuted : exists b, bytes_ok b /\ m_properties (with_body b) = None /\ forall md, exists r m,
  message_decode md (message_bytes (with_body b)) = Ok (r, m) /\
  m_properties m = Some (MkProperties None (Some (s2b "root")) None None None None None None None None None None None).
Proof. exact faked_message. Qed.
Print Assumptions C72_message_refuted.
Example C72_example :
  amqp_sendable (MkAmqpFrame 3 (FR_Transfer (MkTransfer 5 None None None None false None None false false false (Some (TBData [1; 2]))))) /\
  Forall amqp_sendable [MkAmqpFrame 0 (FR_Close (MkClose None)); MkAmqpFrame 3 FR_Empty] /\
  zlen (concat (map amqp_bytes [MkAmqpFrame 0 (FR_Close (MkClose None)); MkAmqpFrame 3 FR_Empty])) = 23 /\
  Forall section_sendable [SEC_AmqpValue (VUint 7); SEC_Data [1; 2; 3]] /\
  zlen (concat (map (s_bytes section_S) [SEC_AmqpValue (VUint 7); SEC_Data [1; 2; 3]])) = 13.
Proof. parts. Qed.
