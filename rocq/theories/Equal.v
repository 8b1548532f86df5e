(** Model of equality of the protocol types: the [PartialEq] derived by /repo/src/protocol/definitions.rs (each [derive] is on the line
    cited), /repo/src/protocol/mod.rs, /repo/src/message/{body,inmessage,outmessage}.rs and /repo/src/framing.rs.

    A derived [==] compares the alternative and then the fields, in the order in which they are declared, and stops at the
    first that differ; no comparison has an effect, so the conjunction is all there is to it. *)

From Verif Require Export Frames.
Open Scope Z_scope.

(** ** What the standard library and hashbrown provide

    [Option<T>]. *)
Definition opt_eqb {T} (eqb : T -> T -> bool) (a b : option T) : bool :=
  match a, b with
  | Some x, Some y => eqb x y
  | None, None => true
  | _, _ => false
  end.
(** [Vec<T>]: same length and equal elements.  [Multiple<T>] (types/mod.rs line 19) and [List] (line 56) derive theirs from it. *)
Section VecEqb.
  Context {T : Type} (eqb : T -> T -> bool).
  Fixpoint vec_eqb (a b : list T) : bool :=
    match a, b with
    | [], [] => true
    | x :: a', y :: b' => eqb x y && vec_eqb a' b'
    | _, _ => false
    end.
End VecEqb.
(** A pair. *)
Definition pair_eqb {A B} (eqa : A -> A -> bool) (eqb : B -> B -> bool) (x y : A * B) : bool := eqa (fst x) (fst y) && eqb (snd x) (snd y).
(** hashbrown's [HashMap<K, V>]: same number of entries, and every entry of the left map is found in the right map with an equal value. *)
Definition map_eqb {K V} (keqb : K -> K -> bool) (veqb : V -> V -> bool) (a b : list (K * V)) : bool :=
  (zlen a =? zlen b) && forallb (fun kv => match hm_get keqb (fst kv) b with Some v => veqb (snd kv) v | None => false end) a.

(** ** Enumerations *)
(** line 438 *)
Definition role_eqb (a b : role) : bool :=
  match a, b with
  | Role_Sender, Role_Sender => true
  | Role_Receiver, Role_Receiver => true
  | _, _ => false
  end.
(** line 484 *)
Definition sender_settle_mode_eqb (a b : sender_settle_mode) : bool :=
  match a, b with
  | SenderSettleMode_Unsettled, SenderSettleMode_Unsettled => true
  | SenderSettleMode_Settled, SenderSettleMode_Settled => true
  | SenderSettleMode_Mixed, SenderSettleMode_Mixed => true
  | _, _ => false
  end.
(** line 540 *)
Definition receiver_settle_mode_eqb (a b : receiver_settle_mode) : bool :=
  match a, b with
  | ReceiverSettleMode_First, ReceiverSettleMode_First => true
  | ReceiverSettleMode_Second, ReceiverSettleMode_Second => true
  | _, _ => false
  end.
(** line 586 *)
Definition amqp_error_eqb (a b : amqp_error) : bool :=
  match a, b with
  | AmqpError_InternalError, AmqpError_InternalError => true
  | AmqpError_NotFound, AmqpError_NotFound => true
  | AmqpError_UnauthorizedAccess, AmqpError_UnauthorizedAccess => true
  | AmqpError_DecodeError, AmqpError_DecodeError => true
  | AmqpError_ResourceLimitExceeded, AmqpError_ResourceLimitExceeded => true
  | AmqpError_NotAllowed, AmqpError_NotAllowed => true
  | AmqpError_InvalidField, AmqpError_InvalidField => true
  | AmqpError_NotImplemented, AmqpError_NotImplemented => true
  | AmqpError_ResourceLocked, AmqpError_ResourceLocked => true
  | AmqpError_PreconditionFailed, AmqpError_PreconditionFailed => true
  | AmqpError_ResourceDeleted, AmqpError_ResourceDeleted => true
  | AmqpError_IllegalState, AmqpError_IllegalState => true
  | AmqpError_FrameSizeTooSmall, AmqpError_FrameSizeTooSmall => true
  | _, _ => false
  end.
(** line 666 *)
Definition connection_error_eqb (a b : connection_error) : bool :=
  match a, b with
  | ConnectionError_ConnectionForced, ConnectionError_ConnectionForced => true
  | ConnectionError_FramingError, ConnectionError_FramingError => true
  | ConnectionError_Redirect, ConnectionError_Redirect => true
  | _, _ => false
  end.
(** line 706 *)
Definition session_error_eqb (a b : session_error) : bool :=
  match a, b with
  | SessionError_WindowViolation, SessionError_WindowViolation => true
  | SessionError_ErrantLink, SessionError_ErrantLink => true
  | SessionError_HandleInUse, SessionError_HandleInUse => true
  | SessionError_UnattachedHandle, SessionError_UnattachedHandle => true
  | _, _ => false
  end.
(** line 752 *)
Definition link_error_eqb (a b : link_error) : bool :=
  match a, b with
  | LinkError_DetachForced, LinkError_DetachForced => true
  | LinkError_TransferLimitExceeded, LinkError_TransferLimitExceeded => true
  | LinkError_MessageSizeExceeded, LinkError_MessageSizeExceeded => true
  | LinkError_Redirect, LinkError_Redirect => true
  | LinkError_Stolen, LinkError_Stolen => true
  | _, _ => false
  end.
(** line 802 *)
Definition sasl_code_eqb (a b : sasl_code) : bool :=
  match a, b with
  | SaslCode_Ok, SaslCode_Ok => true
  | SaslCode_Auth, SaslCode_Auth => true
  | SaslCode_Sys, SaslCode_Sys => true
  | SaslCode_SysPerm, SaslCode_SysPerm => true
  | SaslCode_SysTemp, SaslCode_SysTemp => true
  | _, _ => false
  end.
(** line 878 *)
Definition terminus_durability_eqb (a b : terminus_durability) : bool :=
  match a, b with
  | TerminusDurability_None, TerminusDurability_None => true
  | TerminusDurability_Configuration, TerminusDurability_Configuration => true
  | TerminusDurability_UnsettledState, TerminusDurability_UnsettledState => true
  | _, _ => false
  end.
(** line 934 *)
Definition terminus_expiry_policy_eqb (a b : terminus_expiry_policy) : bool :=
  match a, b with
  | TerminusExpiryPolicy_LinkDetach, TerminusExpiryPolicy_LinkDetach => true
  | TerminusExpiryPolicy_SessionEnd, TerminusExpiryPolicy_SessionEnd => true
  | TerminusExpiryPolicy_ConnectionClose, TerminusExpiryPolicy_ConnectionClose => true
  | TerminusExpiryPolicy_Never, TerminusExpiryPolicy_Never => true
  | _, _ => false
  end.

(** [MessageId]: protocol/mod.rs line 51. *)
Definition message_id_eqb (a b : message_id) : bool :=
  match a, b with
  | MIUlong x, MIUlong y => x =? y
  | MIUuid x, MIUuid y => bytes_eqb x y
  | MIBinary x, MIBinary y => bytes_eqb x y
  | MIString x, MIString y => bytes_eqb x y
  | _, _ => false
  end.
(** [ErrorCondition]: protocol/mod.rs line 99. *)
Definition error_condition_eqb (a b : error_condition) : bool :=
  match a, b with
  | EC_AmqpError x, EC_AmqpError y => amqp_error_eqb x y
  | EC_ConnectionError x, EC_ConnectionError y => connection_error_eqb x y
  | EC_SessionError x, EC_SessionError y => session_error_eqb x y
  | EC_LinkError x, EC_LinkError y => link_error_eqb x y
  | EC_Custom x, EC_Custom y => str_eqb x y
  | _, _ => false
  end.
(** [DistributionMode]: protocol/mod.rs line 150. *)
Definition distribution_mode_eqb (a b : distribution_mode) : bool :=
  match a, b with
  | DM_Move, DM_Move => true
  | DM_Copy, DM_Copy => true
  | DM_Custom x, DM_Custom y => str_eqb x y
  | _, _ => false
  end.

(** ** Composite types *)
(** line 1066 *)
Definition error_eqb (a b : error_t) : bool :=
  error_condition_eqb (err_condition a) (err_condition b)
  && opt_eqb bytes_eqb (err_description a) (err_description b)
  && opt_eqb (map_eqb str_eqb variant_eqb) (err_info a) (err_info b).
(** line 4242 *)
Definition received_eqb (a b : received_t) : bool :=
  Z.eqb (received_section_number a) (received_section_number b)
  && Z.eqb (received_section_offset a) (received_section_offset b).
(** line 4340: a structure without fields *)
Definition accepted_eqb (a b : accepted_t) : bool := true.
(** line 4402 *)
Definition rejected_eqb (a b : rejected_t) : bool :=
  opt_eqb error_eqb (rejected_error a) (rejected_error b).
(** line 4480: a structure without fields *)
Definition released_eqb (a b : released_t) : bool := true.
(** line 4542 *)
Definition modified_eqb (a b : modified_t) : bool :=
  opt_eqb Bool.eqb (modified_delivery_failed a) (modified_delivery_failed b)
  && opt_eqb Bool.eqb (modified_undeliverable_here a) (modified_undeliverable_here b)
  && opt_eqb (map_eqb str_eqb variant_eqb) (modified_message_annotations a) (modified_message_annotations b).
(** line 130 *)
Definition delivery_state_eqb (a b : delivery_state) : bool :=
  match a, b with
  | DS_Received x, DS_Received y => received_eqb x y
  | DS_Accepted x, DS_Accepted y => accepted_eqb x y
  | DS_Rejected x, DS_Rejected y => rejected_eqb x y
  | DS_Released x, DS_Released y => released_eqb x y
  | DS_Modified x, DS_Modified y => modified_eqb x y
  | _, _ => false
  end.
(** line 264 *)
Definition outcome_eqb (a b : outcome) : bool :=
  match a, b with
  | OC_Accepted x, OC_Accepted y => accepted_eqb x y
  | OC_Rejected x, OC_Rejected y => rejected_eqb x y
  | OC_Released x, OC_Released y => released_eqb x y
  | OC_Modified x, OC_Modified y => modified_eqb x y
  | _, _ => false
  end.
(** line 3358 *)
Definition source_eqb (a b : source_t) : bool :=
  opt_eqb bytes_eqb (source_address a) (source_address b)
  && terminus_durability_eqb (source_durable a) (source_durable b)
  && terminus_expiry_policy_eqb (source_expiry_policy a) (source_expiry_policy b)
  && Z.eqb (source_timeout a) (source_timeout b)
  && Bool.eqb (source_dynamic a) (source_dynamic b)
  && opt_eqb (map_eqb str_eqb variant_eqb) (source_dynamic_node_properties a) (source_dynamic_node_properties b)
  && opt_eqb distribution_mode_eqb (source_distribution_mode a) (source_distribution_mode b)
  && opt_eqb (map_eqb str_eqb (opt_eqb bytes_eqb)) (source_filter a) (source_filter b)
  && opt_eqb outcome_eqb (source_default_outcome a) (source_default_outcome b)
  && opt_eqb (vec_eqb str_eqb) (source_outcomes a) (source_outcomes b)
  && opt_eqb (vec_eqb str_eqb) (source_capabilities a) (source_capabilities b).
(** line 3613 *)
Definition target_eqb (a b : target_t) : bool :=
  opt_eqb bytes_eqb (target_address a) (target_address b)
  && terminus_durability_eqb (target_durable a) (target_durable b)
  && terminus_expiry_policy_eqb (target_expiry_policy a) (target_expiry_policy b)
  && Z.eqb (target_timeout a) (target_timeout b)
  && Bool.eqb (target_dynamic a) (target_dynamic b)
  && opt_eqb (map_eqb str_eqb variant_eqb) (target_dynamic_node_properties a) (target_dynamic_node_properties b)
  && opt_eqb (vec_eqb str_eqb) (target_capabilities a) (target_capabilities b).
(** line 1185 *)
Definition open_eqb (a b : open_t) : bool :=
  bytes_eqb (open_container_id a) (open_container_id b)
  && opt_eqb bytes_eqb (open_hostname a) (open_hostname b)
  && Z.eqb (open_max_frame_size a) (open_max_frame_size b)
  && Z.eqb (open_channel_max a) (open_channel_max b)
  && opt_eqb Z.eqb (open_idle_time_out a) (open_idle_time_out b)
  && opt_eqb (vec_eqb str_eqb) (open_outgoing_locales a) (open_outgoing_locales b)
  && opt_eqb (vec_eqb str_eqb) (open_incoming_locales a) (open_incoming_locales b)
  && opt_eqb (vec_eqb str_eqb) (open_offered_capabilities a) (open_offered_capabilities b)
  && opt_eqb (vec_eqb str_eqb) (open_desired_capabilities a) (open_desired_capabilities b)
  && opt_eqb (map_eqb str_eqb variant_eqb) (open_properties a) (open_properties b).
(** line 1423 *)
Definition begin_eqb (a b : begin_t) : bool :=
  opt_eqb Z.eqb (begin_remote_channel a) (begin_remote_channel b)
  && Z.eqb (begin_next_outgoing_id a) (begin_next_outgoing_id b)
  && Z.eqb (begin_incoming_window a) (begin_incoming_window b)
  && Z.eqb (begin_outgoing_window a) (begin_outgoing_window b)
  && Z.eqb (begin_handle_max a) (begin_handle_max b)
  && opt_eqb (vec_eqb str_eqb) (begin_offered_capabilities a) (begin_offered_capabilities b)
  && opt_eqb (vec_eqb str_eqb) (begin_desired_capabilities a) (begin_desired_capabilities b)
  && opt_eqb (map_eqb str_eqb variant_eqb) (begin_properties a) (begin_properties b).
(** line 1627 *)
Definition attach_eqb (a b : attach_t) : bool :=
  bytes_eqb (attach_name a) (attach_name b)
  && Z.eqb (attach_handle a) (attach_handle b)
  && role_eqb (attach_role a) (attach_role b)
  && sender_settle_mode_eqb (attach_snd_settle_mode a) (attach_snd_settle_mode b)
  && receiver_settle_mode_eqb (attach_rcv_settle_mode a) (attach_rcv_settle_mode b)
  && opt_eqb source_eqb (attach_source a) (attach_source b)
  && opt_eqb target_eqb (attach_target a) (attach_target b)
  && opt_eqb (map_eqb variant_eqb variant_eqb) (attach_unsettled a) (attach_unsettled b)
  && Bool.eqb (attach_incomplete_unsettled a) (attach_incomplete_unsettled b)
  && opt_eqb Z.eqb (attach_initial_delivery_count a) (attach_initial_delivery_count b)
  && opt_eqb Z.eqb (attach_max_message_size a) (attach_max_message_size b)
  && opt_eqb (vec_eqb str_eqb) (attach_offered_capabilities a) (attach_offered_capabilities b)
  && opt_eqb (vec_eqb str_eqb) (attach_desired_capabilities a) (attach_desired_capabilities b)
  && opt_eqb (map_eqb str_eqb variant_eqb) (attach_properties a) (attach_properties b).
(** line 1933 *)
Definition flow_eqb (a b : flow_t) : bool :=
  opt_eqb Z.eqb (flow_next_incoming_id a) (flow_next_incoming_id b)
  && Z.eqb (flow_incoming_window a) (flow_incoming_window b)
  && Z.eqb (flow_next_outgoing_id a) (flow_next_outgoing_id b)
  && Z.eqb (flow_outgoing_window a) (flow_outgoing_window b)
  && opt_eqb Z.eqb (flow_handle a) (flow_handle b)
  && opt_eqb Z.eqb (flow_delivery_count a) (flow_delivery_count b)
  && opt_eqb Z.eqb (flow_link_credit a) (flow_link_credit b)
  && opt_eqb Z.eqb (flow_available a) (flow_available b)
  && Bool.eqb (flow_drain a) (flow_drain b)
  && Bool.eqb (flow_echo a) (flow_echo b)
  && opt_eqb (map_eqb str_eqb variant_eqb) (flow_properties a) (flow_properties b).
(** line 2459 *)
Definition disposition_eqb (a b : disposition_t) : bool :=
  role_eqb (disposition_role a) (disposition_role b)
  && Z.eqb (disposition_first a) (disposition_first b)
  && opt_eqb Z.eqb (disposition_last a) (disposition_last b)
  && Bool.eqb (disposition_settled a) (disposition_settled b)
  && opt_eqb delivery_state_eqb (disposition_state a) (disposition_state b)
  && Bool.eqb (disposition_batchable a) (disposition_batchable b).
(** line 2629 *)
Definition detach_eqb (a b : detach_t) : bool :=
  Z.eqb (detach_handle a) (detach_handle b)
  && Bool.eqb (detach_closed a) (detach_closed b)
  && opt_eqb error_eqb (detach_error a) (detach_error b).
(** line 2744 *)
Definition end_eqb (a b : end_t) : bool :=
  opt_eqb error_eqb (end_error a) (end_error b).
(** line 2822 *)
Definition close_eqb (a b : close_t) : bool :=
  opt_eqb error_eqb (close_error a) (close_error b).
(** line 2900 *)
Definition sasl_mechanisms_eqb (a b : sasl_mechanisms_t) : bool :=
  vec_eqb str_eqb (sasl_mechanisms_sasl_server_mechanisms a) (sasl_mechanisms_sasl_server_mechanisms b).
(** line 2985 *)
Definition sasl_init_eqb (a b : sasl_init_t) : bool :=
  str_eqb (sasl_init_mechanism a) (sasl_init_mechanism b)
  && opt_eqb bytes_eqb (sasl_init_initial_response a) (sasl_init_initial_response b)
  && opt_eqb bytes_eqb (sasl_init_hostname a) (sasl_init_hostname b).
(** line 3104 *)
Definition sasl_challenge_eqb (a b : sasl_challenge_t) : bool :=
  bytes_eqb (sasl_challenge_challenge a) (sasl_challenge_challenge b).
(** line 3182 *)
Definition sasl_response_eqb (a b : sasl_response_t) : bool :=
  bytes_eqb (sasl_response_response a) (sasl_response_response b).
(** line 3260 *)
Definition sasl_outcome_eqb (a b : sasl_outcome_t) : bool :=
  sasl_code_eqb (sasl_outcome_code a) (sasl_outcome_code b)
  && opt_eqb bytes_eqb (sasl_outcome_additional_data a) (sasl_outcome_additional_data b).
(** line 197 *)
Definition sasl_frame_body_eqb (a b : sasl_frame_body) : bool :=
  match a, b with
  | SB_SaslMechanisms x, SB_SaslMechanisms y => sasl_mechanisms_eqb x y
  | SB_SaslInit x, SB_SaslInit y => sasl_init_eqb x y
  | SB_SaslChallenge x, SB_SaslChallenge y => sasl_challenge_eqb x y
  | SB_SaslResponse x, SB_SaslResponse y => sasl_response_eqb x y
  | SB_SaslOutcome x, SB_SaslOutcome y => sasl_outcome_eqb x y
  | _, _ => false
  end.
(** line 3800 *)
Definition header_eqb (a b : header_t) : bool :=
  Bool.eqb (header_durable a) (header_durable b)
  && Z.eqb (header_priority a) (header_priority b)
  && opt_eqb Z.eqb (header_ttl a) (header_ttl b)
  && Bool.eqb (header_first_acquirer a) (header_first_acquirer b)
  && Z.eqb (header_delivery_count a) (header_delivery_count b).
(** line 3953 *)
Definition properties_eqb (a b : properties_t) : bool :=
  opt_eqb message_id_eqb (properties_message_id a) (properties_message_id b)
  && opt_eqb bytes_eqb (properties_user_id a) (properties_user_id b)
  && opt_eqb bytes_eqb (properties_to a) (properties_to b)
  && opt_eqb bytes_eqb (properties_subject a) (properties_subject b)
  && opt_eqb bytes_eqb (properties_reply_to a) (properties_reply_to b)
  && opt_eqb message_id_eqb (properties_correlation_id a) (properties_correlation_id b)
  && opt_eqb str_eqb (properties_content_type a) (properties_content_type b)
  && opt_eqb str_eqb (properties_content_encoding a) (properties_content_encoding b)
  && opt_eqb datetime_eqb (properties_absolute_expiry_time a) (properties_absolute_expiry_time b)
  && opt_eqb datetime_eqb (properties_creation_time a) (properties_creation_time b)
  && opt_eqb bytes_eqb (properties_group_id a) (properties_group_id b)
  && opt_eqb Z.eqb (properties_group_sequence a) (properties_group_sequence b)
  && opt_eqb bytes_eqb (properties_reply_to_group_id a) (properties_reply_to_group_id b).
(** line 322; the sections hold maps, binary data, a [List] (a vector of values) or a value. *)
Definition section_eqb (a b : section) : bool :=
  match a, b with
  | SEC_Header x, SEC_Header y => header_eqb x y
  | SEC_DeliveryAnnotations x, SEC_DeliveryAnnotations y => map_eqb str_eqb variant_eqb x y
  | SEC_MessageAnnotations x, SEC_MessageAnnotations y => map_eqb str_eqb variant_eqb x y
  | SEC_ApplicationProperties x, SEC_ApplicationProperties y => map_eqb str_eqb variant_eqb x y
  | SEC_Data x, SEC_Data y => bytes_eqb x y
  | SEC_AmqpSequence x, SEC_AmqpSequence y => vec_eqb variant_eqb x y
  | SEC_AmqpValue x, SEC_AmqpValue y => variant_eqb x y
  | SEC_Footer x, SEC_Footer y => map_eqb str_eqb variant_eqb x y
  | SEC_Properties x, SEC_Properties y => properties_eqb x y
  | _, _ => false
  end.

(** ** Messages *)
Section MessageEqb.
  Context {TB : Type} (tb_eqb : TB -> TB -> bool).
  (** [MessageBody]: body.rs line 9. *)
  Definition message_body_eqb_ (a b : message_body_ TB) : bool :=
    vec_eqb bytes_eqb (mb_data a) (mb_data b)
    && vec_eqb (vec_eqb variant_eqb) (mb_sequence a) (mb_sequence b)
    && vec_eqb tb_eqb (mb_messages a) (mb_messages b)
    && opt_eqb variant_eqb (mb_value a) (mb_value b).
  (** [InMessage] (inmessage.rs line 17) and [OutMessage] (outmessage.rs line 13) up to the application properties: a [HashMap]
      there, a vector of pairs ([VecVariantMap], variant.rs line 144) here.  The memo [size: Cell<usize>] is compared too. *)
  Definition message_eqb_ (app_eqb : list (str * variant) -> list (str * variant) -> bool) (a b : message_ TB) : bool :=
    opt_eqb Z.eqb (m_message_format a) (m_message_format b)
    && opt_eqb header_eqb (m_header a) (m_header b)
    && opt_eqb (map_eqb str_eqb variant_eqb) (m_delivery_annotations a) (m_delivery_annotations b)
    && opt_eqb (map_eqb str_eqb variant_eqb) (m_message_annotations a) (m_message_annotations b)
    && opt_eqb properties_eqb (m_properties a) (m_properties b)
    && opt_eqb app_eqb (m_application_properties a) (m_application_properties b)
    && opt_eqb (map_eqb str_eqb variant_eqb) (m_footer a) (m_footer b)
    && message_body_eqb_ (m_body a) (m_body b)
    && (m_size a =? m_size b).
  Definition in_message_eqb_ : message_ TB -> message_ TB -> bool := message_eqb_ (map_eqb str_eqb variant_eqb).
  Definition out_message_eqb_ : message_ TB -> message_ TB -> bool := message_eqb_ (vec_eqb (pair_eqb str_eqb variant_eqb)).
End MessageEqb.
(** [TransferBody]: protocol/mod.rs line 213. *)
Fixpoint transfer_body_eqb (a b : transfer_body) : bool :=
  match a, b with
  | TBData x, TBData y => bytes_eqb x y
  | TBMessageIn m, TBMessageIn n => in_message_eqb_ transfer_body_eqb m n
  | TBMessageOut m, TBMessageOut n => out_message_eqb_ transfer_body_eqb m n
  | _, _ => false
  end.
Definition in_message_eqb : message -> message -> bool := in_message_eqb_ transfer_body_eqb.
Definition out_message_eqb : message -> message -> bool := out_message_eqb_ transfer_body_eqb.

(** ** Frames *)
(** line 2188 *)
Definition transfer_eqb (a b : transfer_t) : bool :=
  Z.eqb (transfer_handle a) (transfer_handle b)
  && opt_eqb Z.eqb (transfer_delivery_id a) (transfer_delivery_id b)
  && opt_eqb bytes_eqb (transfer_delivery_tag a) (transfer_delivery_tag b)
  && opt_eqb Z.eqb (transfer_message_format a) (transfer_message_format b)
  && opt_eqb Bool.eqb (transfer_settled a) (transfer_settled b)
  && Bool.eqb (transfer_more a) (transfer_more b)
  && opt_eqb receiver_settle_mode_eqb (transfer_rcv_settle_mode a) (transfer_rcv_settle_mode b)
  && opt_eqb delivery_state_eqb (transfer_state a) (transfer_state b)
  && Bool.eqb (transfer_resume a) (transfer_resume b)
  && Bool.eqb (transfer_aborted a) (transfer_aborted b)
  && Bool.eqb (transfer_batchable a) (transfer_batchable b)
  && opt_eqb transfer_body_eqb (transfer_body_f a) (transfer_body_f b).
(** line 9 *)
Definition frame_eqb (a b : frame) : bool :=
  match a, b with
  | FR_Open x, FR_Open y => open_eqb x y
  | FR_Begin x, FR_Begin y => begin_eqb x y
  | FR_Attach x, FR_Attach y => attach_eqb x y
  | FR_Flow x, FR_Flow y => flow_eqb x y
  | FR_Transfer x, FR_Transfer y => transfer_eqb x y
  | FR_Disposition x, FR_Disposition y => disposition_eqb x y
  | FR_Detach x, FR_Detach y => detach_eqb x y
  | FR_End x, FR_End y => end_eqb x y
  | FR_Close x, FR_Close y => close_eqb x y
  | FR_Empty, FR_Empty => true
  | _, _ => false
  end.
(** [AmqpFrame]: framing.rs line 11. *)
Definition amqp_frame_eqb (a b : amqp_frame) : bool :=
  (af_channel_id a =? af_channel_id b) && frame_eqb (af_performative a) (af_performative b).
(** [SaslFrame]: framing.rs line 41. *)
Definition sasl_frame_eqb (a b : sasl_frame) : bool := sasl_frame_body_eqb (sf_body a) (sf_body b).
