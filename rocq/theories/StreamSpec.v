(** Specification for streams of frames and for the protocol header. *)

From Coq Require Import String.
From Verif Require Import Io Utf8Spec Valid Wire TypeSpec CompositeSpec AllTypes CodecSpec MessageSpec FrameSpec.
Open Scope string_scope.
Open Scope list_scope.
Open Scope Z_scope.

(** ** Frames on a stream: the length, which counts itself, and that many bytes less four *)
Definition framed (body bs : bytes) : Prop := bs = be4 (4 + zlen body) ++ body /\ 4 + zlen body < 2 ^ 32.

(** A frame with a body the decoder takes entirely, as [x]. *)
Definition frame_of {T} (T_decode : mode -> bytes -> res (bytes * T)) (md : mode) (x : T) (bs : bytes) : Prop :=
  exists body, framed body bs /\ 4 <= zlen body /\ T_decode md body = Ok ([], x).

(** ** Sending: each item with the extra room the allocator gives while it is written *)
Fixpoint send_all {T} (size : T -> Z) (ops : T -> list wop) (items : list (Z * T)) (b : buf) : option buf :=
  match items with
  | [] => Some b
  | (slack, x) :: r => match amqp_codec_encode slack (size x) (ops x) b with Some b' => send_all size ops r b' | None => None end
  end.

(** An AMQP frame that can be sent, and what is received for it; the same for SASL. *)
Definition amqp_sendable (f : amqp_frame) : Prop := 0 <= af_channel_id f < 2 ^ 16 /\ frame_sendable (af_performative f).
Definition amqp_received (f : amqp_frame) : amqp_frame := MkAmqpFrame (af_channel_id f) (frame_canon (af_performative f)).
Definition sasl_received (f : sasl_frame) : sasl_frame := MkSaslFrame (s_canon sasl_frame_body_S (sf_body f)).

(** A buffer: contents within the capacity. *)
Definition buf_ok (b : buf) : Prop := zlen (b_data b) <= b_cap b.

(** A transfer of a message whose value was set after its size was asked for. *)
Definition stale_transfer (l : list variant) : frame :=
  FR_Transfer (MkTransfer 0 None None None None false None None false false false
    (Some (TBMessageOut (set_value (message_sized message_default) (VList l))))).

(** ** Protocol header (2.2, 5.2.1, 5.3.1): "AMQP", protocol id, version 1.0.0 *)
Definition protocol_number (p : protocol_id) : Z := match p with PAmqp => 0 | PAmqpTls => 2 | PAmqpSasl => 3 end.
Definition protocol_header (p : protocol_id) : bytes := s2b "AMQP" ++ [protocol_number p; 1; 0; 0].
