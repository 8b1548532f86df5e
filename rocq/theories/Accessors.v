(** Model of the functions that read the fields of a generated struct: the blocks [impl X { pub fn field(&self) ... }] of
    /repo/src/protocol/definitions.rs.

    A field is given by value, by reference or, if it is optional, as an option of a reference ([as_ref]); all three are the
    field here. *)

From Coq Require Import String.
From Verif Require Import Frames.
Open Scope string_scope.
Open Scope list_scope.
Open Scope Z_scope.

(** A function of one argument, [&self], with its name.  The functions of a struct are the tuple of them. *)
Record accessor (T X : Type) : Type := MkAccessor { acc_name : string; acc_get : T -> X }.
Arguments MkAccessor {T X}. Arguments acc_name {T X}. Arguments acc_get {T X}.

(** ** [Error]: lines 1072-1081 *)
Definition error_get_condition (v : error_t) : error_condition := err_condition v.   (* lines 1073-1075 *)
Definition error_get_description (v : error_t) : option bytes := err_description v.   (* lines 1076-1078 *)
Definition error_get_info (v : error_t) : option (list (symbol * variant)) := err_info v.   (* lines 1079-1081 *)
Definition error_accessors :=
  (MkAccessor "condition" error_get_condition,
  (MkAccessor "description" error_get_description,
  (MkAccessor "info" error_get_info, tt))).

(** ** [Received]: lines 4247-4253 *)
Definition received_get_section_number (v : received_t) : Z := received_section_number v.   (* lines 4248-4250 *)
Definition received_get_section_offset (v : received_t) : Z := received_section_offset v.   (* lines 4251-4253 *)
Definition received_accessors :=
  (MkAccessor "section_number" received_get_section_number,
  (MkAccessor "section_offset" received_get_section_offset, tt)).

(** ** [Accepted]: no fields *)
Definition accepted_accessors := tt.

(** ** [Rejected]: lines 4406-4409 *)
Definition rejected_get_error (v : rejected_t) : option error_t := rejected_error v.   (* lines 4407-4409 *)
Definition rejected_accessors :=
  (MkAccessor "error" rejected_get_error, tt).

(** ** [Released]: no fields *)
Definition released_accessors := tt.

(** ** [Modified]: lines 4548-4557 *)
Definition modified_get_delivery_failed (v : modified_t) : option bool := modified_delivery_failed v.   (* lines 4549-4551 *)
Definition modified_get_undeliverable_here (v : modified_t) : option bool := modified_undeliverable_here v.   (* lines 4552-4554 *)
Definition modified_get_message_annotations (v : modified_t) : option (list (symbol * variant)) := modified_message_annotations v.   (* lines 4555-4557 *)
Definition modified_accessors :=
  (MkAccessor "delivery_failed" modified_get_delivery_failed,
  (MkAccessor "undeliverable_here" modified_get_undeliverable_here,
  (MkAccessor "message_annotations" modified_get_message_annotations, tt))).

(** ** [Source]: lines 3372-3405 *)
Definition source_get_address (v : source_t) : option bytes := source_address v.   (* lines 3373-3375 *)
Definition source_get_durable (v : source_t) : terminus_durability := source_durable v.   (* lines 3376-3378 *)
Definition source_get_expiry_policy (v : source_t) : terminus_expiry_policy := source_expiry_policy v.   (* lines 3379-3381 *)
Definition source_get_timeout (v : source_t) : Z := source_timeout v.   (* lines 3382-3384 *)
Definition source_get_dynamic (v : source_t) : bool := source_dynamic v.   (* lines 3385-3387 *)
Definition source_get_dynamic_node_properties (v : source_t) : option (list (symbol * variant)) := source_dynamic_node_properties v.   (* lines 3388-3390 *)
Definition source_get_distribution_mode (v : source_t) : option distribution_mode := source_distribution_mode v.   (* lines 3391-3393 *)
Definition source_get_filter (v : source_t) : option (list (symbol * option bytes)) := source_filter v.   (* lines 3394-3396 *)
Definition source_get_default_outcome (v : source_t) : option outcome := source_default_outcome v.   (* lines 3397-3399 *)
Definition source_get_outcomes (v : source_t) : option (list symbol) := source_outcomes v.   (* lines 3400-3402 *)
Definition source_get_capabilities (v : source_t) : option (list symbol) := source_capabilities v.   (* lines 3403-3405 *)
Definition source_accessors :=
  (MkAccessor "address" source_get_address,
  (MkAccessor "durable" source_get_durable,
  (MkAccessor "expiry_policy" source_get_expiry_policy,
  (MkAccessor "timeout" source_get_timeout,
  (MkAccessor "dynamic" source_get_dynamic,
  (MkAccessor "dynamic_node_properties" source_get_dynamic_node_properties,
  (MkAccessor "distribution_mode" source_get_distribution_mode,
  (MkAccessor "filter" source_get_filter,
  (MkAccessor "default_outcome" source_get_default_outcome,
  (MkAccessor "outcomes" source_get_outcomes,
  (MkAccessor "capabilities" source_get_capabilities, tt))))))))))).

(** ** [Target]: lines 3623-3644 *)
Definition target_get_address (v : target_t) : option bytes := target_address v.   (* lines 3624-3626 *)
Definition target_get_durable (v : target_t) : terminus_durability := target_durable v.   (* lines 3627-3629 *)
Definition target_get_expiry_policy (v : target_t) : terminus_expiry_policy := target_expiry_policy v.   (* lines 3630-3632 *)
Definition target_get_timeout (v : target_t) : Z := target_timeout v.   (* lines 3633-3635 *)
Definition target_get_dynamic (v : target_t) : bool := target_dynamic v.   (* lines 3636-3638 *)
Definition target_get_dynamic_node_properties (v : target_t) : option (list (symbol * variant)) := target_dynamic_node_properties v.   (* lines 3639-3641 *)
Definition target_get_capabilities (v : target_t) : option (list symbol) := target_capabilities v.   (* lines 3642-3644 *)
Definition target_accessors :=
  (MkAccessor "address" target_get_address,
  (MkAccessor "durable" target_get_durable,
  (MkAccessor "expiry_policy" target_get_expiry_policy,
  (MkAccessor "timeout" target_get_timeout,
  (MkAccessor "dynamic" target_get_dynamic,
  (MkAccessor "dynamic_node_properties" target_get_dynamic_node_properties,
  (MkAccessor "capabilities" target_get_capabilities, tt))))))).

(** ** [Open]: lines 1198-1228 *)
Definition open_get_container_id (v : open_t) : bytes := open_container_id v.   (* lines 1199-1201 *)
Definition open_get_hostname (v : open_t) : option bytes := open_hostname v.   (* lines 1202-1204 *)
Definition open_get_max_frame_size (v : open_t) : Z := open_max_frame_size v.   (* lines 1205-1207 *)
Definition open_get_channel_max (v : open_t) : Z := open_channel_max v.   (* lines 1208-1210 *)
Definition open_get_idle_time_out (v : open_t) : option Z := open_idle_time_out v.   (* lines 1211-1213 *)
Definition open_get_outgoing_locales (v : open_t) : option (list symbol) := open_outgoing_locales v.   (* lines 1214-1216 *)
Definition open_get_incoming_locales (v : open_t) : option (list symbol) := open_incoming_locales v.   (* lines 1217-1219 *)
Definition open_get_offered_capabilities (v : open_t) : option (list symbol) := open_offered_capabilities v.   (* lines 1220-1222 *)
Definition open_get_desired_capabilities (v : open_t) : option (list symbol) := open_desired_capabilities v.   (* lines 1223-1225 *)
Definition open_get_properties (v : open_t) : option (list (symbol * variant)) := open_properties v.   (* lines 1226-1228 *)
Definition open_accessors :=
  (MkAccessor "container_id" open_get_container_id,
  (MkAccessor "hostname" open_get_hostname,
  (MkAccessor "max_frame_size" open_get_max_frame_size,
  (MkAccessor "channel_max" open_get_channel_max,
  (MkAccessor "idle_time_out" open_get_idle_time_out,
  (MkAccessor "outgoing_locales" open_get_outgoing_locales,
  (MkAccessor "incoming_locales" open_get_incoming_locales,
  (MkAccessor "offered_capabilities" open_get_offered_capabilities,
  (MkAccessor "desired_capabilities" open_get_desired_capabilities,
  (MkAccessor "properties" open_get_properties, tt)))))))))).

(** ** [Begin]: lines 1434-1458 *)
Definition begin_get_remote_channel (v : begin_t) : option Z := begin_remote_channel v.   (* lines 1435-1437 *)
Definition begin_get_next_outgoing_id (v : begin_t) : Z := begin_next_outgoing_id v.   (* lines 1438-1440 *)
Definition begin_get_incoming_window (v : begin_t) : Z := begin_incoming_window v.   (* lines 1441-1443 *)
Definition begin_get_outgoing_window (v : begin_t) : Z := begin_outgoing_window v.   (* lines 1444-1446 *)
Definition begin_get_handle_max (v : begin_t) : Z := begin_handle_max v.   (* lines 1447-1449 *)
Definition begin_get_offered_capabilities (v : begin_t) : option (list symbol) := begin_offered_capabilities v.   (* lines 1450-1452 *)
Definition begin_get_desired_capabilities (v : begin_t) : option (list symbol) := begin_desired_capabilities v.   (* lines 1453-1455 *)
Definition begin_get_properties (v : begin_t) : option (list (symbol * variant)) := begin_properties v.   (* lines 1456-1458 *)
Definition begin_accessors :=
  (MkAccessor "remote_channel" begin_get_remote_channel,
  (MkAccessor "next_outgoing_id" begin_get_next_outgoing_id,
  (MkAccessor "incoming_window" begin_get_incoming_window,
  (MkAccessor "outgoing_window" begin_get_outgoing_window,
  (MkAccessor "handle_max" begin_get_handle_max,
  (MkAccessor "offered_capabilities" begin_get_offered_capabilities,
  (MkAccessor "desired_capabilities" begin_get_desired_capabilities,
  (MkAccessor "properties" begin_get_properties, tt)))))))).

(** ** [Attach]: lines 1644-1686 *)
Definition attach_get_name (v : attach_t) : bytes := attach_name v.   (* lines 1645-1647 *)
Definition attach_get_handle (v : attach_t) : Z := attach_handle v.   (* lines 1648-1650 *)
Definition attach_get_role (v : attach_t) : role := attach_role v.   (* lines 1651-1653 *)
Definition attach_get_snd_settle_mode (v : attach_t) : sender_settle_mode := attach_snd_settle_mode v.   (* lines 1654-1656 *)
Definition attach_get_rcv_settle_mode (v : attach_t) : receiver_settle_mode := attach_rcv_settle_mode v.   (* lines 1657-1659 *)
Definition attach_get_source (v : attach_t) : option source_t := attach_source v.   (* lines 1660-1662 *)
Definition attach_get_target (v : attach_t) : option target_t := attach_target v.   (* lines 1663-1665 *)
Definition attach_get_unsettled (v : attach_t) : option (list (variant * variant)) := attach_unsettled v.   (* lines 1666-1668 *)
Definition attach_get_incomplete_unsettled (v : attach_t) : bool := attach_incomplete_unsettled v.   (* lines 1669-1671 *)
Definition attach_get_initial_delivery_count (v : attach_t) : option Z := attach_initial_delivery_count v.   (* lines 1672-1674 *)
Definition attach_get_max_message_size (v : attach_t) : option Z := attach_max_message_size v.   (* lines 1675-1677 *)
Definition attach_get_offered_capabilities (v : attach_t) : option (list symbol) := attach_offered_capabilities v.   (* lines 1678-1680 *)
Definition attach_get_desired_capabilities (v : attach_t) : option (list symbol) := attach_desired_capabilities v.   (* lines 1681-1683 *)
Definition attach_get_properties (v : attach_t) : option (list (symbol * variant)) := attach_properties v.   (* lines 1684-1686 *)
Definition attach_accessors :=
  (MkAccessor "name" attach_get_name,
  (MkAccessor "handle" attach_get_handle,
  (MkAccessor "role" attach_get_role,
  (MkAccessor "snd_settle_mode" attach_get_snd_settle_mode,
  (MkAccessor "rcv_settle_mode" attach_get_rcv_settle_mode,
  (MkAccessor "source" attach_get_source,
  (MkAccessor "target" attach_get_target,
  (MkAccessor "unsettled" attach_get_unsettled,
  (MkAccessor "incomplete_unsettled" attach_get_incomplete_unsettled,
  (MkAccessor "initial_delivery_count" attach_get_initial_delivery_count,
  (MkAccessor "max_message_size" attach_get_max_message_size,
  (MkAccessor "offered_capabilities" attach_get_offered_capabilities,
  (MkAccessor "desired_capabilities" attach_get_desired_capabilities,
  (MkAccessor "properties" attach_get_properties, tt)))))))))))))).

(** ** [Flow]: lines 1947-1980 *)
Definition flow_get_next_incoming_id (v : flow_t) : option Z := flow_next_incoming_id v.   (* lines 1948-1950 *)
Definition flow_get_incoming_window (v : flow_t) : Z := flow_incoming_window v.   (* lines 1951-1953 *)
Definition flow_get_next_outgoing_id (v : flow_t) : Z := flow_next_outgoing_id v.   (* lines 1954-1956 *)
Definition flow_get_outgoing_window (v : flow_t) : Z := flow_outgoing_window v.   (* lines 1957-1959 *)
Definition flow_get_handle (v : flow_t) : option Z := flow_handle v.   (* lines 1960-1962 *)
Definition flow_get_delivery_count (v : flow_t) : option Z := flow_delivery_count v.   (* lines 1963-1965 *)
Definition flow_get_link_credit (v : flow_t) : option Z := flow_link_credit v.   (* lines 1966-1968 *)
Definition flow_get_available (v : flow_t) : option Z := flow_available v.   (* lines 1969-1971 *)
Definition flow_get_drain (v : flow_t) : bool := flow_drain v.   (* lines 1972-1974 *)
Definition flow_get_echo (v : flow_t) : bool := flow_echo v.   (* lines 1975-1977 *)
Definition flow_get_properties (v : flow_t) : option (list (symbol * variant)) := flow_properties v.   (* lines 1978-1980 *)
Definition flow_accessors :=
  (MkAccessor "next_incoming_id" flow_get_next_incoming_id,
  (MkAccessor "incoming_window" flow_get_incoming_window,
  (MkAccessor "next_outgoing_id" flow_get_next_outgoing_id,
  (MkAccessor "outgoing_window" flow_get_outgoing_window,
  (MkAccessor "handle" flow_get_handle,
  (MkAccessor "delivery_count" flow_get_delivery_count,
  (MkAccessor "link_credit" flow_get_link_credit,
  (MkAccessor "available" flow_get_available,
  (MkAccessor "drain" flow_get_drain,
  (MkAccessor "echo" flow_get_echo,
  (MkAccessor "properties" flow_get_properties, tt))))))))))).

(** ** [Transfer]: lines 2203-2239 *)
Definition transfer_get_handle (v : transfer_t) : Z := transfer_handle v.   (* lines 2204-2206 *)
Definition transfer_get_delivery_id (v : transfer_t) : option Z := transfer_delivery_id v.   (* lines 2207-2209 *)
Definition transfer_get_delivery_tag (v : transfer_t) : option bytes := transfer_delivery_tag v.   (* lines 2210-2212 *)
Definition transfer_get_message_format (v : transfer_t) : option Z := transfer_message_format v.   (* lines 2213-2215 *)
Definition transfer_get_settled (v : transfer_t) : option bool := transfer_settled v.   (* lines 2216-2218 *)
Definition transfer_get_more (v : transfer_t) : bool := transfer_more v.   (* lines 2219-2221 *)
Definition transfer_get_rcv_settle_mode (v : transfer_t) : option receiver_settle_mode := transfer_rcv_settle_mode v.   (* lines 2222-2224 *)
Definition transfer_get_state (v : transfer_t) : option delivery_state := transfer_state v.   (* lines 2225-2227 *)
Definition transfer_get_resume (v : transfer_t) : bool := transfer_resume v.   (* lines 2228-2230 *)
Definition transfer_get_aborted (v : transfer_t) : bool := transfer_aborted v.   (* lines 2231-2233 *)
Definition transfer_get_batchable (v : transfer_t) : bool := transfer_batchable v.   (* lines 2234-2236 *)
Definition transfer_get_body (v : transfer_t) : option transfer_body := transfer_body_f v.   (* lines 2237-2239 *)
Definition transfer_accessors :=
  (MkAccessor "handle" transfer_get_handle,
  (MkAccessor "delivery_id" transfer_get_delivery_id,
  (MkAccessor "delivery_tag" transfer_get_delivery_tag,
  (MkAccessor "message_format" transfer_get_message_format,
  (MkAccessor "settled" transfer_get_settled,
  (MkAccessor "more" transfer_get_more,
  (MkAccessor "rcv_settle_mode" transfer_get_rcv_settle_mode,
  (MkAccessor "state" transfer_get_state,
  (MkAccessor "resume" transfer_get_resume,
  (MkAccessor "aborted" transfer_get_aborted,
  (MkAccessor "batchable" transfer_get_batchable, tt))))))))))).
Definition transfer_body_accessor := MkAccessor "body" transfer_get_body.

(** ** [Disposition]: lines 2468-2486 *)
Definition disposition_get_role (v : disposition_t) : role := disposition_role v.   (* lines 2469-2471 *)
Definition disposition_get_first (v : disposition_t) : Z := disposition_first v.   (* lines 2472-2474 *)
Definition disposition_get_last (v : disposition_t) : option Z := disposition_last v.   (* lines 2475-2477 *)
Definition disposition_get_settled (v : disposition_t) : bool := disposition_settled v.   (* lines 2478-2480 *)
Definition disposition_get_state (v : disposition_t) : option delivery_state := disposition_state v.   (* lines 2481-2483 *)
Definition disposition_get_batchable (v : disposition_t) : bool := disposition_batchable v.   (* lines 2484-2486 *)
Definition disposition_accessors :=
  (MkAccessor "role" disposition_get_role,
  (MkAccessor "first" disposition_get_first,
  (MkAccessor "last" disposition_get_last,
  (MkAccessor "settled" disposition_get_settled,
  (MkAccessor "state" disposition_get_state,
  (MkAccessor "batchable" disposition_get_batchable, tt)))))).

(** ** [Detach]: lines 2635-2644 *)
Definition detach_get_handle (v : detach_t) : Z := detach_handle v.   (* lines 2636-2638 *)
Definition detach_get_closed (v : detach_t) : bool := detach_closed v.   (* lines 2639-2641 *)
Definition detach_get_error (v : detach_t) : option error_t := detach_error v.   (* lines 2642-2644 *)
Definition detach_accessors :=
  (MkAccessor "handle" detach_get_handle,
  (MkAccessor "closed" detach_get_closed,
  (MkAccessor "error" detach_get_error, tt))).

(** ** [End]: lines 2748-2751 *)
Definition end_get_error (v : end_t) : option error_t := end_error v.   (* lines 2749-2751 *)
Definition end_accessors :=
  (MkAccessor "error" end_get_error, tt).

(** ** [Close]: lines 2826-2829 *)
Definition close_get_error (v : close_t) : option error_t := close_error v.   (* lines 2827-2829 *)
Definition close_accessors :=
  (MkAccessor "error" close_get_error, tt).

(** ** [SaslMechanisms]: lines 2904-2907 *)
Definition sasl_mechanisms_get_sasl_server_mechanisms (v : sasl_mechanisms_t) : list symbol := sasl_mechanisms_sasl_server_mechanisms v.   (* lines 2905-2907 *)
Definition sasl_mechanisms_accessors :=
  (MkAccessor "sasl_server_mechanisms" sasl_mechanisms_get_sasl_server_mechanisms, tt).

(** ** [SaslInit]: lines 2991-3000 *)
Definition sasl_init_get_mechanism (v : sasl_init_t) : symbol := sasl_init_mechanism v.   (* lines 2992-2994 *)
Definition sasl_init_get_initial_response (v : sasl_init_t) : option bytes := sasl_init_initial_response v.   (* lines 2995-2997 *)
Definition sasl_init_get_hostname (v : sasl_init_t) : option bytes := sasl_init_hostname v.   (* lines 2998-3000 *)
Definition sasl_init_accessors :=
  (MkAccessor "mechanism" sasl_init_get_mechanism,
  (MkAccessor "initial_response" sasl_init_get_initial_response,
  (MkAccessor "hostname" sasl_init_get_hostname, tt))).

(** ** [SaslChallenge]: lines 3108-3111 *)
Definition sasl_challenge_get_challenge (v : sasl_challenge_t) : bytes := sasl_challenge_challenge v.   (* lines 3109-3111 *)
Definition sasl_challenge_accessors :=
  (MkAccessor "challenge" sasl_challenge_get_challenge, tt).

(** ** [SaslResponse]: lines 3186-3189 *)
Definition sasl_response_get_response (v : sasl_response_t) : bytes := sasl_response_response v.   (* lines 3187-3189 *)
Definition sasl_response_accessors :=
  (MkAccessor "response" sasl_response_get_response, tt).

(** ** [SaslOutcome]: lines 3265-3271 *)
Definition sasl_outcome_get_code (v : sasl_outcome_t) : sasl_code := sasl_outcome_code v.   (* lines 3266-3268 *)
Definition sasl_outcome_get_additional_data (v : sasl_outcome_t) : option bytes := sasl_outcome_additional_data v.   (* lines 3269-3271 *)
Definition sasl_outcome_accessors :=
  (MkAccessor "code" sasl_outcome_get_code,
  (MkAccessor "additional_data" sasl_outcome_get_additional_data, tt)).

(** ** [Header]: lines 3808-3823 *)
Definition header_get_durable (v : header_t) : bool := header_durable v.   (* lines 3809-3811 *)
Definition header_get_priority (v : header_t) : Z := header_priority v.   (* lines 3812-3814 *)
Definition header_get_ttl (v : header_t) : option Z := header_ttl v.   (* lines 3815-3817 *)
Definition header_get_first_acquirer (v : header_t) : bool := header_first_acquirer v.   (* lines 3818-3820 *)
Definition header_get_delivery_count (v : header_t) : Z := header_delivery_count v.   (* lines 3821-3823 *)
Definition header_accessors :=
  (MkAccessor "durable" header_get_durable,
  (MkAccessor "priority" header_get_priority,
  (MkAccessor "ttl" header_get_ttl,
  (MkAccessor "first_acquirer" header_get_first_acquirer,
  (MkAccessor "delivery_count" header_get_delivery_count, tt))))).

(** ** [Properties]: lines 3969-4008 *)
Definition properties_get_message_id (v : properties_t) : option message_id := properties_message_id v.   (* lines 3970-3972 *)
Definition properties_get_user_id (v : properties_t) : option bytes := properties_user_id v.   (* lines 3973-3975 *)
Definition properties_get_to (v : properties_t) : option bytes := properties_to v.   (* lines 3976-3978 *)
Definition properties_get_subject (v : properties_t) : option bytes := properties_subject v.   (* lines 3979-3981 *)
Definition properties_get_reply_to (v : properties_t) : option bytes := properties_reply_to v.   (* lines 3982-3984 *)
Definition properties_get_correlation_id (v : properties_t) : option message_id := properties_correlation_id v.   (* lines 3985-3987 *)
Definition properties_get_content_type (v : properties_t) : option symbol := properties_content_type v.   (* lines 3988-3990 *)
Definition properties_get_content_encoding (v : properties_t) : option symbol := properties_content_encoding v.   (* lines 3991-3993 *)
Definition properties_get_absolute_expiry_time (v : properties_t) : option datetime := properties_absolute_expiry_time v.   (* lines 3994-3996 *)
Definition properties_get_creation_time (v : properties_t) : option datetime := properties_creation_time v.   (* lines 3997-3999 *)
Definition properties_get_group_id (v : properties_t) : option bytes := properties_group_id v.   (* lines 4000-4002 *)
Definition properties_get_group_sequence (v : properties_t) : option Z := properties_group_sequence v.   (* lines 4003-4005 *)
Definition properties_get_reply_to_group_id (v : properties_t) : option bytes := properties_reply_to_group_id v.   (* lines 4006-4008 *)
Definition properties_accessors :=
  (MkAccessor "message_id" properties_get_message_id,
  (MkAccessor "user_id" properties_get_user_id,
  (MkAccessor "to" properties_get_to,
  (MkAccessor "subject" properties_get_subject,
  (MkAccessor "reply_to" properties_get_reply_to,
  (MkAccessor "correlation_id" properties_get_correlation_id,
  (MkAccessor "content_type" properties_get_content_type,
  (MkAccessor "content_encoding" properties_get_content_encoding,
  (MkAccessor "absolute_expiry_time" properties_get_absolute_expiry_time,
  (MkAccessor "creation_time" properties_get_creation_time,
  (MkAccessor "group_id" properties_get_group_id,
  (MkAccessor "group_sequence" properties_get_group_sequence,
  (MkAccessor "reply_to_group_id" properties_get_reply_to_group_id, tt))))))))))))).

