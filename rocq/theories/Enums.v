(** Model of the enumerations of /repo/src/protocol/definitions.rs (lines 438-975).

    Each enumeration has [try_from], [DecodeFormatted] (decode the base type, then [try_from]) and [Encode].
    [&Symbol] patterns match on [as_str()]. *)

From Coq Require Import String.
From Verif Require Export Decode.
Open Scope string_scope.
Open Scope list_scope.
Open Scope Z_scope.

(** [match v.as_str() { name => .. }] *)
Definition sym_is (s : symbol) (name : string) : bool := bytes_eqb (str_bytes s) (s2b name).

(** [Ok((input, Self::try_from(base)?))] *)
Definition enum_dec {B T} (d : dec B) (try_from : B -> res T) : dec T := fun md inp fmt =>
  '(i, base) <- d md inp fmt ;;
  v <- try_from base ;;
  Ok (i, v).

(** [Role]: definitions.rs lines 439-442. *)
Inductive role :=
| Role_Sender
| Role_Receiver.

(** [Role::try_from]: lines 443-451. *)
Definition role_try_from (v : bool) : res role :=
  match v with
  | false => Ok Role_Sender
  | true => Ok Role_Receiver
  end.

(** [DecodeFormatted for Role]: lines 452-457. *)
Definition role_dec : dec role := enum_dec bool_dec role_try_from.

(** [Encode for Role]: lines 458-483. *)
Definition role_size (v : role) : Z :=
  match v with
  | Role_Sender => e_size bool_E false
  | Role_Receiver => e_size bool_E true
  end.
Definition role_enc (v : role) : list wop :=
  match v with
  | Role_Sender => e_enc bool_E false
  | Role_Receiver => e_enc bool_E true
  end.
Definition role_C : codec role := MkCodec (MkEnc role_size role_enc) role_dec.

(** [SenderSettleMode]: definitions.rs lines 485-489. *)
Inductive sender_settle_mode :=
| SenderSettleMode_Unsettled
| SenderSettleMode_Settled
| SenderSettleMode_Mixed.

(** [SenderSettleMode::try_from]: lines 490-499. *)
Definition sender_settle_mode_try_from (v : Z) : res sender_settle_mode :=
  if v =? 0 then Ok SenderSettleMode_Unsettled
  else if v =? 1 then Ok SenderSettleMode_Settled
  else if v =? 2 then Ok SenderSettleMode_Mixed
  else Err (EUnknownEnumOption "SenderSettleMode").

(** [DecodeFormatted for SenderSettleMode]: lines 500-505. *)
Definition sender_settle_mode_dec : dec sender_settle_mode := enum_dec u8_dec sender_settle_mode_try_from.

(** [Encode for SenderSettleMode]: lines 506-539. *)
Definition sender_settle_mode_size (v : sender_settle_mode) : Z :=
  match v with
  | SenderSettleMode_Unsettled => e_size u8_E 0
  | SenderSettleMode_Settled => e_size u8_E 1
  | SenderSettleMode_Mixed => e_size u8_E 2
  end.
Definition sender_settle_mode_enc (v : sender_settle_mode) : list wop :=
  match v with
  | SenderSettleMode_Unsettled => e_enc u8_E 0
  | SenderSettleMode_Settled => e_enc u8_E 1
  | SenderSettleMode_Mixed => e_enc u8_E 2
  end.
Definition sender_settle_mode_C : codec sender_settle_mode := MkCodec (MkEnc sender_settle_mode_size sender_settle_mode_enc) sender_settle_mode_dec.

(** [ReceiverSettleMode]: definitions.rs lines 541-544. *)
Inductive receiver_settle_mode :=
| ReceiverSettleMode_First
| ReceiverSettleMode_Second.

(** [ReceiverSettleMode::try_from]: lines 545-553. *)
Definition receiver_settle_mode_try_from (v : Z) : res receiver_settle_mode :=
  if v =? 0 then Ok ReceiverSettleMode_First
  else if v =? 1 then Ok ReceiverSettleMode_Second
  else Err (EUnknownEnumOption "ReceiverSettleMode").

(** [DecodeFormatted for ReceiverSettleMode]: lines 554-559. *)
Definition receiver_settle_mode_dec : dec receiver_settle_mode := enum_dec u8_dec receiver_settle_mode_try_from.

(** [Encode for ReceiverSettleMode]: lines 560-585. *)
Definition receiver_settle_mode_size (v : receiver_settle_mode) : Z :=
  match v with
  | ReceiverSettleMode_First => e_size u8_E 0
  | ReceiverSettleMode_Second => e_size u8_E 1
  end.
Definition receiver_settle_mode_enc (v : receiver_settle_mode) : list wop :=
  match v with
  | ReceiverSettleMode_First => e_enc u8_E 0
  | ReceiverSettleMode_Second => e_enc u8_E 1
  end.
Definition receiver_settle_mode_C : codec receiver_settle_mode := MkCodec (MkEnc receiver_settle_mode_size receiver_settle_mode_enc) receiver_settle_mode_dec.

(** [AmqpError]: definitions.rs lines 587-601. *)
Inductive amqp_error :=
| AmqpError_InternalError
| AmqpError_NotFound
| AmqpError_UnauthorizedAccess
| AmqpError_DecodeError
| AmqpError_ResourceLimitExceeded
| AmqpError_NotAllowed
| AmqpError_InvalidField
| AmqpError_NotImplemented
| AmqpError_ResourceLocked
| AmqpError_PreconditionFailed
| AmqpError_ResourceDeleted
| AmqpError_IllegalState
| AmqpError_FrameSizeTooSmall.

(** [AmqpError::try_from]: lines 602-621. *)
Definition amqp_error_try_from (v : symbol) : res amqp_error :=
  if sym_is v "amqp:internal-error" then Ok AmqpError_InternalError
  else if sym_is v "amqp:not-found" then Ok AmqpError_NotFound
  else if sym_is v "amqp:unauthorized-access" then Ok AmqpError_UnauthorizedAccess
  else if sym_is v "amqp:decode-error" then Ok AmqpError_DecodeError
  else if sym_is v "amqp:resource-limit-exceeded" then Ok AmqpError_ResourceLimitExceeded
  else if sym_is v "amqp:not-allowed" then Ok AmqpError_NotAllowed
  else if sym_is v "amqp:invalid-field" then Ok AmqpError_InvalidField
  else if sym_is v "amqp:not-implemented" then Ok AmqpError_NotImplemented
  else if sym_is v "amqp:resource-locked" then Ok AmqpError_ResourceLocked
  else if sym_is v "amqp:precondition-failed" then Ok AmqpError_PreconditionFailed
  else if sym_is v "amqp:resource-deleted" then Ok AmqpError_ResourceDeleted
  else if sym_is v "amqp:illegal-state" then Ok AmqpError_IllegalState
  else if sym_is v "amqp:frame-size-too-small" then Ok AmqpError_FrameSizeTooSmall
  else Err (EUnknownEnumOption "AmqpError").

(** [DecodeFormatted for AmqpError]: lines 622-627. *)
Definition amqp_error_dec : dec amqp_error := enum_dec symbol_dec amqp_error_try_from.

(** [Encode for AmqpError]: lines 628-665. *)
Definition amqp_error_size (v : amqp_error) : Z :=
  match v with
  | AmqpError_InternalError => 19 + 2
  | AmqpError_NotFound => 14 + 2
  | AmqpError_UnauthorizedAccess => 24 + 2
  | AmqpError_DecodeError => 17 + 2
  | AmqpError_ResourceLimitExceeded => 28 + 2
  | AmqpError_NotAllowed => 16 + 2
  | AmqpError_InvalidField => 18 + 2
  | AmqpError_NotImplemented => 20 + 2
  | AmqpError_ResourceLocked => 20 + 2
  | AmqpError_PreconditionFailed => 24 + 2
  | AmqpError_ResourceDeleted => 21 + 2
  | AmqpError_IllegalState => 18 + 2
  | AmqpError_FrameSizeTooSmall => 25 + 2
  end.
Definition amqp_error_enc (v : amqp_error) : list wop :=
  match v with
  | AmqpError_InternalError => static_symbol_enc (s2b "amqp:internal-error")
  | AmqpError_NotFound => static_symbol_enc (s2b "amqp:not-found")
  | AmqpError_UnauthorizedAccess => static_symbol_enc (s2b "amqp:unauthorized-access")
  | AmqpError_DecodeError => static_symbol_enc (s2b "amqp:decode-error")
  | AmqpError_ResourceLimitExceeded => static_symbol_enc (s2b "amqp:resource-limit-exceeded")
  | AmqpError_NotAllowed => static_symbol_enc (s2b "amqp:not-allowed")
  | AmqpError_InvalidField => static_symbol_enc (s2b "amqp:invalid-field")
  | AmqpError_NotImplemented => static_symbol_enc (s2b "amqp:not-implemented")
  | AmqpError_ResourceLocked => static_symbol_enc (s2b "amqp:resource-locked")
  | AmqpError_PreconditionFailed => static_symbol_enc (s2b "amqp:precondition-failed")
  | AmqpError_ResourceDeleted => static_symbol_enc (s2b "amqp:resource-deleted")
  | AmqpError_IllegalState => static_symbol_enc (s2b "amqp:illegal-state")
  | AmqpError_FrameSizeTooSmall => static_symbol_enc (s2b "amqp:frame-size-too-small")
  end.
Definition amqp_error_C : codec amqp_error := MkCodec (MkEnc amqp_error_size amqp_error_enc) amqp_error_dec.

(** [ConnectionError]: definitions.rs lines 667-671. *)
Inductive connection_error :=
| ConnectionError_ConnectionForced
| ConnectionError_FramingError
| ConnectionError_Redirect.

(** [ConnectionError::try_from]: lines 672-681. *)
Definition connection_error_try_from (v : symbol) : res connection_error :=
  if sym_is v "amqp:connection:forced" then Ok ConnectionError_ConnectionForced
  else if sym_is v "amqp:connection:framing-error" then Ok ConnectionError_FramingError
  else if sym_is v "amqp:connection:redirect" then Ok ConnectionError_Redirect
  else Err (EUnknownEnumOption "ConnectionError").

(** [DecodeFormatted for ConnectionError]: lines 682-687. *)
Definition connection_error_dec : dec connection_error := enum_dec symbol_dec connection_error_try_from.

(** [Encode for ConnectionError]: lines 688-705. *)
Definition connection_error_size (v : connection_error) : Z :=
  match v with
  | ConnectionError_ConnectionForced => 22 + 2
  | ConnectionError_FramingError => 29 + 2
  | ConnectionError_Redirect => 24 + 2
  end.
Definition connection_error_enc (v : connection_error) : list wop :=
  match v with
  | ConnectionError_ConnectionForced => static_symbol_enc (s2b "amqp:connection:forced")
  | ConnectionError_FramingError => static_symbol_enc (s2b "amqp:connection:framing-error")
  | ConnectionError_Redirect => static_symbol_enc (s2b "amqp:connection:redirect")
  end.
Definition connection_error_C : codec connection_error := MkCodec (MkEnc connection_error_size connection_error_enc) connection_error_dec.

(** [SessionError]: definitions.rs lines 707-712. *)
Inductive session_error :=
| SessionError_WindowViolation
| SessionError_ErrantLink
| SessionError_HandleInUse
| SessionError_UnattachedHandle.

(** [SessionError::try_from]: lines 713-723. *)
Definition session_error_try_from (v : symbol) : res session_error :=
  if sym_is v "amqp:session:window-violation" then Ok SessionError_WindowViolation
  else if sym_is v "amqp:session:errant-link" then Ok SessionError_ErrantLink
  else if sym_is v "amqp:session:handle-in-use" then Ok SessionError_HandleInUse
  else if sym_is v "amqp:session:unattached-handle" then Ok SessionError_UnattachedHandle
  else Err (EUnknownEnumOption "SessionError").

(** [DecodeFormatted for SessionError]: lines 724-729. *)
Definition session_error_dec : dec session_error := enum_dec symbol_dec session_error_try_from.

(** [Encode for SessionError]: lines 730-751. *)
Definition session_error_size (v : session_error) : Z :=
  match v with
  | SessionError_WindowViolation => 29 + 2
  | SessionError_ErrantLink => 24 + 2
  | SessionError_HandleInUse => 26 + 2
  | SessionError_UnattachedHandle => 30 + 2
  end.
Definition session_error_enc (v : session_error) : list wop :=
  match v with
  | SessionError_WindowViolation => static_symbol_enc (s2b "amqp:session:window-violation")
  | SessionError_ErrantLink => static_symbol_enc (s2b "amqp:session:errant-link")
  | SessionError_HandleInUse => static_symbol_enc (s2b "amqp:session:handle-in-use")
  | SessionError_UnattachedHandle => static_symbol_enc (s2b "amqp:session:unattached-handle")
  end.
Definition session_error_C : codec session_error := MkCodec (MkEnc session_error_size session_error_enc) session_error_dec.

(** [LinkError]: definitions.rs lines 753-759. *)
Inductive link_error :=
| LinkError_DetachForced
| LinkError_TransferLimitExceeded
| LinkError_MessageSizeExceeded
| LinkError_Redirect
| LinkError_Stolen.

(** [LinkError::try_from]: lines 760-771. *)
Definition link_error_try_from (v : symbol) : res link_error :=
  if sym_is v "amqp:link:detach-forced" then Ok LinkError_DetachForced
  else if sym_is v "amqp:link:transfer-limit-exceeded" then Ok LinkError_TransferLimitExceeded
  else if sym_is v "amqp:link:message-size-exceeded" then Ok LinkError_MessageSizeExceeded
  else if sym_is v "amqp:link:redirect" then Ok LinkError_Redirect
  else if sym_is v "amqp:link:stolen" then Ok LinkError_Stolen
  else Err (EUnknownEnumOption "LinkError").

(** [DecodeFormatted for LinkError]: lines 772-777. *)
Definition link_error_dec : dec link_error := enum_dec symbol_dec link_error_try_from.

(** [Encode for LinkError]: lines 778-801. *)
Definition link_error_size (v : link_error) : Z :=
  match v with
  | LinkError_DetachForced => 23 + 2
  | LinkError_TransferLimitExceeded => 33 + 2
  | LinkError_MessageSizeExceeded => 31 + 2
  | LinkError_Redirect => 18 + 2
  | LinkError_Stolen => 16 + 2
  end.
Definition link_error_enc (v : link_error) : list wop :=
  match v with
  | LinkError_DetachForced => static_symbol_enc (s2b "amqp:link:detach-forced")
  | LinkError_TransferLimitExceeded => static_symbol_enc (s2b "amqp:link:transfer-limit-exceeded")
  | LinkError_MessageSizeExceeded => static_symbol_enc (s2b "amqp:link:message-size-exceeded")
  | LinkError_Redirect => static_symbol_enc (s2b "amqp:link:redirect")
  | LinkError_Stolen => static_symbol_enc (s2b "amqp:link:stolen")
  end.
Definition link_error_C : codec link_error := MkCodec (MkEnc link_error_size link_error_enc) link_error_dec.

(** [SaslCode]: definitions.rs lines 803-809. *)
Inductive sasl_code :=
| SaslCode_Ok
| SaslCode_Auth
| SaslCode_Sys
| SaslCode_SysPerm
| SaslCode_SysTemp.

(** [SaslCode::try_from]: lines 810-821. *)
Definition sasl_code_try_from (v : Z) : res sasl_code :=
  if v =? 0 then Ok SaslCode_Ok
  else if v =? 1 then Ok SaslCode_Auth
  else if v =? 2 then Ok SaslCode_Sys
  else if v =? 3 then Ok SaslCode_SysPerm
  else if v =? 4 then Ok SaslCode_SysTemp
  else Err (EUnknownEnumOption "SaslCode").

(** [DecodeFormatted for SaslCode]: lines 822-827. *)
Definition sasl_code_dec : dec sasl_code := enum_dec u8_dec sasl_code_try_from.

(** [Encode for SaslCode]: lines 828-877. *)
Definition sasl_code_size (v : sasl_code) : Z :=
  match v with
  | SaslCode_Ok => e_size u8_E 0
  | SaslCode_Auth => e_size u8_E 1
  | SaslCode_Sys => e_size u8_E 2
  | SaslCode_SysPerm => e_size u8_E 3
  | SaslCode_SysTemp => e_size u8_E 4
  end.
Definition sasl_code_enc (v : sasl_code) : list wop :=
  match v with
  | SaslCode_Ok => e_enc u8_E 0
  | SaslCode_Auth => e_enc u8_E 1
  | SaslCode_Sys => e_enc u8_E 2
  | SaslCode_SysPerm => e_enc u8_E 3
  | SaslCode_SysTemp => e_enc u8_E 4
  end.
Definition sasl_code_C : codec sasl_code := MkCodec (MkEnc sasl_code_size sasl_code_enc) sasl_code_dec.

(** [TerminusDurability]: definitions.rs lines 879-883. *)
Inductive terminus_durability :=
| TerminusDurability_None
| TerminusDurability_Configuration
| TerminusDurability_UnsettledState.

(** [TerminusDurability::try_from]: lines 884-893. *)
Definition terminus_durability_try_from (v : Z) : res terminus_durability :=
  if v =? 0 then Ok TerminusDurability_None
  else if v =? 1 then Ok TerminusDurability_Configuration
  else if v =? 2 then Ok TerminusDurability_UnsettledState
  else Err (EUnknownEnumOption "TerminusDurability").

(** [DecodeFormatted for TerminusDurability]: lines 894-899. *)
Definition terminus_durability_dec : dec terminus_durability := enum_dec u32_dec terminus_durability_try_from.

(** [Encode for TerminusDurability]: lines 900-933. *)
Definition terminus_durability_size (v : terminus_durability) : Z :=
  match v with
  | TerminusDurability_None => e_size u32_E 0
  | TerminusDurability_Configuration => e_size u32_E 1
  | TerminusDurability_UnsettledState => e_size u32_E 2
  end.
Definition terminus_durability_enc (v : terminus_durability) : list wop :=
  match v with
  | TerminusDurability_None => e_enc u32_E 0
  | TerminusDurability_Configuration => e_enc u32_E 1
  | TerminusDurability_UnsettledState => e_enc u32_E 2
  end.
Definition terminus_durability_C : codec terminus_durability := MkCodec (MkEnc terminus_durability_size terminus_durability_enc) terminus_durability_dec.

(** [TerminusExpiryPolicy]: definitions.rs lines 935-940. *)
Inductive terminus_expiry_policy :=
| TerminusExpiryPolicy_LinkDetach
| TerminusExpiryPolicy_SessionEnd
| TerminusExpiryPolicy_ConnectionClose
| TerminusExpiryPolicy_Never.

(** [TerminusExpiryPolicy::try_from]: lines 941-951. *)
Definition terminus_expiry_policy_try_from (v : symbol) : res terminus_expiry_policy :=
  if sym_is v "link-detach" then Ok TerminusExpiryPolicy_LinkDetach
  else if sym_is v "session-end" then Ok TerminusExpiryPolicy_SessionEnd
  else if sym_is v "connection-close" then Ok TerminusExpiryPolicy_ConnectionClose
  else if sym_is v "never" then Ok TerminusExpiryPolicy_Never
  else Err (EUnknownEnumOption "TerminusExpiryPolicy").

(** [DecodeFormatted for TerminusExpiryPolicy]: lines 952-957. *)
Definition terminus_expiry_policy_dec : dec terminus_expiry_policy := enum_dec symbol_dec terminus_expiry_policy_try_from.

(** [Encode for TerminusExpiryPolicy]: lines 958-975. *)
Definition terminus_expiry_policy_size (v : terminus_expiry_policy) : Z :=
  match v with
  | TerminusExpiryPolicy_LinkDetach => 11 + 2
  | TerminusExpiryPolicy_SessionEnd => 11 + 2
  | TerminusExpiryPolicy_ConnectionClose => 16 + 2
  | TerminusExpiryPolicy_Never => 5 + 2
  end.
Definition terminus_expiry_policy_enc (v : terminus_expiry_policy) : list wop :=
  match v with
  | TerminusExpiryPolicy_LinkDetach => static_symbol_enc (s2b "link-detach")
  | TerminusExpiryPolicy_SessionEnd => static_symbol_enc (s2b "session-end")
  | TerminusExpiryPolicy_ConnectionClose => static_symbol_enc (s2b "connection-close")
  | TerminusExpiryPolicy_Never => static_symbol_enc (s2b "never")
  end.
Definition terminus_expiry_policy_C : codec terminus_expiry_policy := MkCodec (MkEnc terminus_expiry_policy_size terminus_expiry_policy_enc) terminus_expiry_policy_dec.
