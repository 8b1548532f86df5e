(** Specification: what the errors of the decoders mean (file ErrorClaims). *)

From Coq Require Import String.
From Verif Require Import Frames Utf8Spec Valid Wire TypeSpec CompositeSpec AllTypes CodecSpec FrameSpec.
Open Scope string_scope.
Open Scope list_scope.
Open Scope Z_scope.

(** ** What more input cannot change

    Errors other than [Incomplete], and panics other than an index out of range. *)
Definition final (e : perr) : Prop := match e with EIncomplete _ => False | _ => True end.
Definition final_panic (p : panic) : Prop := p <> PSlice.

(** The result when [m] bytes would do: ask for more but not for more than [m], or index out of range. *)
Definition awaits {A} (x : res A) (m : Z) : Prop := x = Panic PSlice \/ exists n, x = Err (EIncomplete (Some n)) /\ 1 <= n <= m.

(** What may be made of a frame [v] of which [a] is there: nothing if that is the header alone, whose length is in its first byte
    (in words; the four bytes before the frame count), or a transfer with less of the payload. *)
Definition shortened (a : bytes) (w v : amqp_frame) : Prop := af_channel_id w = af_channel_id v /\
  (af_performative w = FR_Empty /\ (exists words r, a = words :: r /\ zlen a = 4 * words - 4) \/
   exists t p q, af_performative w = FR_Transfer (transfer_of t (received_payload p)) /\ af_performative v = FR_Transfer (transfer_of t (received_payload (p ++ q)))).

(** ** What an error says about the input *)
Definition part (a b : bytes) : Prop := exists l r, b = l ++ a ++ r.
(** A text and its length in one byte or four. *)
Definition counted (t bs : bytes) : Prop := bs = zlen t :: t \/ bs = be4 (zlen t) ++ t.

(** The mandatory fields of the composite types, with the code and the name of the type. *)
Fixpoint mandatory {R} (F : fields R) : list string :=
  match F with
  | FNil => []
  | FReq name _ r => name :: mandatory r
  | FOpt _ _ r => mandatory r
  | FDef _ _ _ r => mandatory r
  end.
Definition mandatory_fields : list (Z * string * list string) :=
  map (fun K => (k_code K, k_name K, mandatory (k_fields K))) all_composites ++ [(0x14, "amqp:transfer:list", ["handle"])].

(** The enumerations by number and by name. *)
Definition numbered : list (string * list Z) :=
  [("SenderSettleMode", [0; 1; 2]); ("ReceiverSettleMode", [0; 1]); ("SaslCode", [0; 1; 2; 3; 4]); ("TerminusDurability", [0; 1; 2])].
Definition spelled : list (string * list string) :=
  [("TerminusExpiryPolicy", ["link-detach"; "session-end"; "connection-close"; "never"]);
   ("AmqpError", ["amqp:internal-error"; "amqp:not-found"; "amqp:unauthorized-access"; "amqp:decode-error"; "amqp:resource-limit-exceeded";
     "amqp:not-allowed"; "amqp:invalid-field"; "amqp:not-implemented"; "amqp:resource-locked"; "amqp:precondition-failed";
     "amqp:resource-deleted"; "amqp:illegal-state"; "amqp:frame-size-too-small"]);
   ("ConnectionError", ["amqp:connection:forced"; "amqp:connection:framing-error"; "amqp:connection:redirect"]);
   ("SessionError", ["amqp:session:window-violation"; "amqp:session:errant-link"; "amqp:session:handle-in-use"; "amqp:session:unattached-handle"]);
   ("LinkError", ["amqp:link:detach-forced"; "amqp:link:transfer-limit-exceeded"; "amqp:link:message-size-exceeded"; "amqp:link:redirect"; "amqp:link:stolen"])].

Definition says (inp : bytes) (e : perr) : Prop :=
  match e with
  | EInvalidSize | EUnexpectedFrameType _ | EUuidParseError => False   (* not while a value is decoded *)
  | EIncomplete o => exists n, o = Some n /\ 1 <= n
  | EInvalidFormatCode c => In c inp
  | EInvalidChar c => part (be4 c) inp /\ ~ scalar c
  | EInvalidDescriptor d => exists label, wire_descriptor d label /\ part label inp
  | ERequiredFieldOmitted name => exists code type names label, In (code, type, names) mandatory_fields /\ In name names /\
      wire_label code type label /\ part label inp
  | EUnknownEnumOption name =>
      (exists opts n, In (name, opts) numbered /\ ~ In n opts /\ (part [n] inp \/ part (be4 n) inp)) \/
      (exists opts t bs, In (name, opts) spelled /\ ~ In t (map s2b opts) /\ counted t bs /\ part bs inp)
  | EUtf8Error => exists t bs, ~ is_utf8 t /\ counted t bs /\ part bs inp
  end.
(** Frames: the header is judged too. *)
Definition frame_says (type : Z) (inp : bytes) (e : perr) : Prop :=
  match e with
  | EUnexpectedFrameType t => nth_error inp 1 = Some t /\ t <> type
  | EInvalidSize => exists doff r, inp = doff :: type :: r /\ doff < 2
  | _ => says inp e
  end.
