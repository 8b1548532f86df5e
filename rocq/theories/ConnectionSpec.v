(** Specification for a connection: which items belong to it, and what is received for an item sent. *)

From Verif Require Import Connection Wire TypeSpec CompositeSpec AllTypes CodecSpec MessageSpec FrameSpec StreamSpec.
Open Scope list_scope.
Open Scope Z_scope.

Definition kind_of (x : item) : kind := match x with IHeader _ => KHeader | ISasl _ => KSasl | IAmqp _ => KAmqp end.
Definition item_sendable (x : item) : Prop :=
  match x with IHeader _ => True | ISasl f => sasl_sendable (sf_body f) | IAmqp f => amqp_sendable f end.
Definition item_received (x : item) : item :=
  match x with IHeader p => IHeader p | ISasl f => ISasl (sasl_received f) | IAmqp f => IAmqp (amqp_received f) end.
(** The bytes stand for one item. *)
Definition item_bytes (md : mode) (x : item) (bs : bytes) : Prop :=
  match x with
  | IHeader p => bs = protocol_header p
  | ISasl f => frame_of sasl_frame_decode md f bs
  | IAmqp f => frame_of amqp_frame_decode md f bs
  end.

(** [agrees step a k xs a' k']: with the application in state [a] and the codec for [k] in use, each of [xs] is of the kind the
    application expects at that point; in the end it is in state [a'] and uses a codec for [k']. *)
Inductive agrees {A} (step : A -> item -> A * option kind) : A -> kind -> list item -> A -> kind -> Prop :=
| agrees_nil a k : agrees step a k [] a k
| agrees_keep a k x xs a1 a' k' : kind_of x = k -> step a x = (a1, None) -> agrees step a1 k xs a' k' -> agrees step a k (x :: xs) a' k'
| agrees_switch a k x xs a1 k1 a' k' : kind_of x = k -> step a x = (a1, Some k1) -> agrees step a1 k1 xs a' k' -> agrees step a k (x :: xs) a' k'.

(** A connection on which nothing was received since the codec was installed. *)
Definition connection_new {A} (a : A) (k : kind) : connection := CLive a (reader_new k) [].

(** The letters of a protocol header as a length. *)
Definition AMQP_length : Z := 0x414d5150.

(** An application: a header, SASL frames up to the outcome, a header, AMQP frames (part 5.3.2). *)
Inductive stage := Greeting | Authenticating | Restarting | Running.
Definition handshake (s : stage) (x : item) : stage * option kind :=
  match s, x with
  | Greeting, IHeader PAmqpSasl => (Authenticating, Some KSasl)
  | Greeting, IHeader _ => (Running, Some KAmqp)
  | Authenticating, ISasl (MkSaslFrame (SB_SaslOutcome _)) => (Restarting, Some KHeader)
  | Restarting, IHeader _ => (Running, Some KAmqp)
  | _, _ => (s, None)
  end.
