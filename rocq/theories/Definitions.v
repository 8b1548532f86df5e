(** Model of the composite types of /repo/src/protocol/definitions.rs (all but [Transfer] and [Frame], see Frames.v).

    The source is generated from codegen/definitions.rs, so every composite has the same shape; the shared text of the
    per-field blocks is factored into [req_field], [opt_field] and [def_field], everything else is transcribed.
    Records keep the field order of the Rust structs. *)

From Coq Require Import String.
From Verif Require Export Protocol.
Open Scope string_scope.
Open Scope list_scope.
Open Scope Z_scope.


(** ** [Error]: definitions.rs lines 1067-1071 *)
Record error_t : Type := MkError {
  err_condition : error_condition;
  err_description : option bytes;
  err_info : option (list (symbol * variant))
}.

(** [decode_error_inner]: lines 1086-1128. *)
Definition decode_error_inner (md : mode) (inp : bytes) : res (bytes * error_t) :=
  '(s0, remainder) <- open_list md inp ;;
  '(s1, condition) <- req_field "condition" error_condition_C md s0 ;;
  '(s2, description) <- opt_field bstr_C md s1 ;;
  '(s3, info) <- opt_field fields_C md s2 ;;
  Ok (remainder, MkError condition description info).

(** content size, [encoded_size_error_inner] (lines 1129-1141) and [encode_error_inner] (lines 1142-1161);
    FIELD_COUNT: lines 1072-1084. *)
Definition error_content_size (v : error_t) : Z :=
  0
  + e_size (c_E error_condition_C) (err_condition v)
  + e_size (c_E (option_C bstr_C)) (err_description v)
  + e_size (c_E (option_C fields_C)) (err_info v).
Definition error_size (v : error_t) : Z := composite_size (error_content_size v).
Definition error_enc (v : error_t) : list wop :=
  composite_header 29 3 (error_content_size v)
  ++ e_enc (c_E error_condition_C) (err_condition v)
  ++ e_enc (c_E (option_C bstr_C)) (err_description v)
  ++ e_enc (c_E (option_C fields_C)) (err_info v).

(** [DecodeFormatted for Error]: lines 1162-1176; [Encode for Error]: lines 1177-1184. *)
Definition error_dec : dec error_t := composite_dec 29 "amqp:error:list" decode_error_inner.
Definition error_C : codec error_t := MkCodec (MkEnc error_size error_enc) error_dec.

(** ** [Received]: definitions.rs lines 4243-4246 *)
Record received_t : Type := MkReceived {
  received_section_number : Z;
  received_section_offset : Z
}.

(** [decode_received_inner]: lines 4258-4290. *)
Definition decode_received_inner (md : mode) (inp : bytes) : res (bytes * received_t) :=
  '(s0, remainder) <- open_list md inp ;;
  '(s1, section_number) <- req_field "section_number" u32_C md s0 ;;
  '(s2, section_offset) <- req_field "section_offset" u64_C md s1 ;;
  Ok (remainder, MkReceived section_number section_offset).

(** content size, [encoded_size_received_inner] (lines 4291-4300) and [encode_received_inner] (lines 4301-4316);
    FIELD_COUNT: lines 4247-4256. *)
Definition received_content_size (v : received_t) : Z :=
  0
  + e_size (c_E u32_C) (received_section_number v)
  + e_size (c_E u64_C) (received_section_offset v).
Definition received_size (v : received_t) : Z := composite_size (received_content_size v).
Definition received_enc (v : received_t) : list wop :=
  composite_header 35 2 (received_content_size v)
  ++ e_enc (c_E u32_C) (received_section_number v)
  ++ e_enc (c_E u64_C) (received_section_offset v).

(** [DecodeFormatted for Received]: lines 4317-4331; [Encode for Received]: lines 4332-4339. *)
Definition received_dec : dec received_t := composite_dec 35 "amqp:received:list" decode_received_inner.
Definition received_C : codec received_t := MkCodec (MkEnc received_size received_enc) received_dec.

(** ** [Accepted]: definitions.rs lines 4341-4341 *)
Inductive accepted_t := MkAccepted.

(** [decode_accepted_inner]: lines 4347-4354. *)
Definition decode_accepted_inner (md : mode) (inp : bytes) : res (bytes * accepted_t) :=
  '(s0, remainder) <- open_list md inp ;;
  Ok (remainder, MkAccepted).

(** content size, [encoded_size_accepted_inner] (lines 4355-4364) and [encode_accepted_inner] (lines 4365-4378);
    FIELD_COUNT: lines 4342-4345. *)
Definition accepted_content_size (v : accepted_t) : Z :=
  0.
Definition accepted_size (v : accepted_t) : Z := composite_size (accepted_content_size v).
Definition accepted_enc (v : accepted_t) : list wop :=
  composite_header 36 0 (accepted_content_size v).

(** [DecodeFormatted for Accepted]: lines 4379-4393; [Encode for Accepted]: lines 4394-4401. *)
Definition accepted_dec : dec accepted_t := composite_dec 36 "amqp:accepted:list" decode_accepted_inner.
Definition accepted_C : codec accepted_t := MkCodec (MkEnc accepted_size accepted_enc) accepted_dec.

(** ** [Rejected]: definitions.rs lines 4403-4405 *)
Record rejected_t : Type := MkRejected {
  rejected_error : option error_t
}.

(** [decode_rejected_inner]: lines 4414-4431. *)
Definition decode_rejected_inner (md : mode) (inp : bytes) : res (bytes * rejected_t) :=
  '(s0, remainder) <- open_list md inp ;;
  '(s1, error) <- opt_field error_C md s0 ;;
  Ok (remainder, MkRejected error).

(** content size, [encoded_size_rejected_inner] (lines 4432-4441) and [encode_rejected_inner] (lines 4442-4456);
    FIELD_COUNT: lines 4406-4412. *)
Definition rejected_content_size (v : rejected_t) : Z :=
  0
  + e_size (c_E (option_C error_C)) (rejected_error v).
Definition rejected_size (v : rejected_t) : Z := composite_size (rejected_content_size v).
Definition rejected_enc (v : rejected_t) : list wop :=
  composite_header 37 1 (rejected_content_size v)
  ++ e_enc (c_E (option_C error_C)) (rejected_error v).

(** [DecodeFormatted for Rejected]: lines 4457-4471; [Encode for Rejected]: lines 4472-4479. *)
Definition rejected_dec : dec rejected_t := composite_dec 37 "amqp:rejected:list" decode_rejected_inner.
Definition rejected_C : codec rejected_t := MkCodec (MkEnc rejected_size rejected_enc) rejected_dec.

(** ** [Released]: definitions.rs lines 4481-4481 *)
Inductive released_t := MkReleased.

(** [decode_released_inner]: lines 4487-4494. *)
Definition decode_released_inner (md : mode) (inp : bytes) : res (bytes * released_t) :=
  '(s0, remainder) <- open_list md inp ;;
  Ok (remainder, MkReleased).

(** content size, [encoded_size_released_inner] (lines 4495-4504) and [encode_released_inner] (lines 4505-4518);
    FIELD_COUNT: lines 4482-4485. *)
Definition released_content_size (v : released_t) : Z :=
  0.
Definition released_size (v : released_t) : Z := composite_size (released_content_size v).
Definition released_enc (v : released_t) : list wop :=
  composite_header 38 0 (released_content_size v).

(** [DecodeFormatted for Released]: lines 4519-4533; [Encode for Released]: lines 4534-4541. *)
Definition released_dec : dec released_t := composite_dec 38 "amqp:released:list" decode_released_inner.
Definition released_C : codec released_t := MkCodec (MkEnc released_size released_enc) released_dec.

(** ** [Modified]: definitions.rs lines 4543-4547 *)
Record modified_t : Type := MkModified {
  modified_delivery_failed : option bool;
  modified_undeliverable_here : option bool;
  modified_message_annotations : option (list (symbol * variant))
}.

(** [decode_modified_inner]: lines 4562-4604. *)
Definition decode_modified_inner (md : mode) (inp : bytes) : res (bytes * modified_t) :=
  '(s0, remainder) <- open_list md inp ;;
  '(s1, delivery_failed) <- opt_field bool_C md s0 ;;
  '(s2, undeliverable_here) <- opt_field bool_C md s1 ;;
  '(s3, message_annotations) <- opt_field fields_C md s2 ;;
  Ok (remainder, MkModified delivery_failed undeliverable_here message_annotations).

(** content size, [encoded_size_modified_inner] (lines 4605-4617) and [encode_modified_inner] (lines 4618-4637);
    FIELD_COUNT: lines 4548-4560. *)
Definition modified_content_size (v : modified_t) : Z :=
  0
  + e_size (c_E (option_C bool_C)) (modified_delivery_failed v)
  + e_size (c_E (option_C bool_C)) (modified_undeliverable_here v)
  + e_size (c_E (option_C fields_C)) (modified_message_annotations v).
Definition modified_size (v : modified_t) : Z := composite_size (modified_content_size v).
Definition modified_enc (v : modified_t) : list wop :=
  composite_header 39 3 (modified_content_size v)
  ++ e_enc (c_E (option_C bool_C)) (modified_delivery_failed v)
  ++ e_enc (c_E (option_C bool_C)) (modified_undeliverable_here v)
  ++ e_enc (c_E (option_C fields_C)) (modified_message_annotations v).

(** [DecodeFormatted for Modified]: lines 4638-4652; [Encode for Modified]: lines 4653-4660. *)
Definition modified_dec : dec modified_t := composite_dec 39 "amqp:modified:list" decode_modified_inner.
Definition modified_C : codec modified_t := MkCodec (MkEnc modified_size modified_enc) modified_dec.

(** ** [DeliveryState]: definitions.rs lines 131-137 *)
Inductive delivery_state :=
| DS_Received (v : received_t)
| DS_Accepted (v : accepted_t)
| DS_Rejected (v : rejected_t)
| DS_Released (v : released_t)
| DS_Modified (v : modified_t).

(** [DecodeFormatted for DeliveryState]: lines 138-176. The descriptor selects the inner decoder. *)
Definition delivery_state_select (md : mode) (d : descriptor) (inp : bytes) : res (bytes * delivery_state) :=
  match d with
  | DUlong c =>
    if c =? 35 then map_res DS_Received (decode_received_inner md inp)
    else if c =? 36 then map_res DS_Accepted (decode_accepted_inner md inp)
    else if c =? 37 then map_res DS_Rejected (decode_rejected_inner md inp)
    else if c =? 38 then map_res DS_Released (decode_released_inner md inp)
    else if c =? 39 then map_res DS_Modified (decode_modified_inner md inp)
    else Err (EInvalidDescriptor d)
  | DSymbol a =>
    if sym_is a "amqp:received:list" then map_res DS_Received (decode_received_inner md inp)
    else if sym_is a "amqp:accepted:list" then map_res DS_Accepted (decode_accepted_inner md inp)
    else if sym_is a "amqp:rejected:list" then map_res DS_Rejected (decode_rejected_inner md inp)
    else if sym_is a "amqp:released:list" then map_res DS_Released (decode_released_inner md inp)
    else if sym_is a "amqp:modified:list" then map_res DS_Modified (decode_modified_inner md inp)
    else Err (EInvalidDescriptor d)
  end.
Definition delivery_state_dec : dec delivery_state := fun md inp fmt =>
  _ <- validate_code fmt FC_DESCRIBED ;;
  '(inp1, d) <- decode descriptor_dec md inp ;;
  delivery_state_select md d inp1.

(** [Encode for DeliveryState]: lines 177-196. *)
Definition delivery_state_size (x : delivery_state) : Z :=
  match x with
  | DS_Received v => received_size v
  | DS_Accepted v => accepted_size v
  | DS_Rejected v => rejected_size v
  | DS_Released v => released_size v
  | DS_Modified v => modified_size v
  end.
Definition delivery_state_enc (x : delivery_state) : list wop :=
  match x with
  | DS_Received v => received_enc v
  | DS_Accepted v => accepted_enc v
  | DS_Rejected v => rejected_enc v
  | DS_Released v => released_enc v
  | DS_Modified v => modified_enc v
  end.
Definition delivery_state_C : codec delivery_state := MkCodec (MkEnc delivery_state_size delivery_state_enc) delivery_state_dec.

(** ** [Outcome]: definitions.rs lines 265-270 *)
Inductive outcome :=
| OC_Accepted (v : accepted_t)
| OC_Rejected (v : rejected_t)
| OC_Released (v : released_t)
| OC_Modified (v : modified_t).

(** [DecodeFormatted for Outcome]: lines 271-303. The descriptor selects the inner decoder. *)
Definition outcome_select (md : mode) (d : descriptor) (inp : bytes) : res (bytes * outcome) :=
  match d with
  | DUlong c =>
    if c =? 36 then map_res OC_Accepted (decode_accepted_inner md inp)
    else if c =? 37 then map_res OC_Rejected (decode_rejected_inner md inp)
    else if c =? 38 then map_res OC_Released (decode_released_inner md inp)
    else if c =? 39 then map_res OC_Modified (decode_modified_inner md inp)
    else Err (EInvalidDescriptor d)
  | DSymbol a =>
    if sym_is a "amqp:accepted:list" then map_res OC_Accepted (decode_accepted_inner md inp)
    else if sym_is a "amqp:rejected:list" then map_res OC_Rejected (decode_rejected_inner md inp)
    else if sym_is a "amqp:released:list" then map_res OC_Released (decode_released_inner md inp)
    else if sym_is a "amqp:modified:list" then map_res OC_Modified (decode_modified_inner md inp)
    else Err (EInvalidDescriptor d)
  end.
Definition outcome_dec : dec outcome := fun md inp fmt =>
  _ <- validate_code fmt FC_DESCRIBED ;;
  '(inp1, d) <- decode descriptor_dec md inp ;;
  outcome_select md d inp1.

(** [Encode for Outcome]: lines 304-321. *)
Definition outcome_size (x : outcome) : Z :=
  match x with
  | OC_Accepted v => accepted_size v
  | OC_Rejected v => rejected_size v
  | OC_Released v => released_size v
  | OC_Modified v => modified_size v
  end.
Definition outcome_enc (x : outcome) : list wop :=
  match x with
  | OC_Accepted v => accepted_enc v
  | OC_Rejected v => rejected_enc v
  | OC_Released v => released_enc v
  | OC_Modified v => modified_enc v
  end.
Definition outcome_C : codec outcome := MkCodec (MkEnc outcome_size outcome_enc) outcome_dec.

(** ** [Source]: definitions.rs lines 3359-3371 *)
Record source_t : Type := MkSource {
  source_address : option bytes;
  source_durable : terminus_durability;
  source_expiry_policy : terminus_expiry_policy;
  source_timeout : Z;
  source_dynamic : bool;
  source_dynamic_node_properties : option (list (symbol * variant));
  source_distribution_mode : option distribution_mode;
  source_filter : option (list (symbol * option bytes));
  source_default_outcome : option outcome;
  source_outcomes : option (list symbol);
  source_capabilities : option (list symbol)
}.

(** [decode_source_inner]: lines 3410-3532. *)
Definition decode_source_inner (md : mode) (inp : bytes) : res (bytes * source_t) :=
  '(s0, remainder) <- open_list md inp ;;
  '(s1, address) <- opt_field bstr_C md s0 ;;
  '(s2, durable) <- def_field terminus_durability_C TerminusDurability_None md s1 ;;
  '(s3, expiry_policy) <- def_field terminus_expiry_policy_C TerminusExpiryPolicy_SessionEnd md s2 ;;
  '(s4, timeout) <- def_field u32_C 0 md s3 ;;
  '(s5, dynamic) <- def_field bool_C false md s4 ;;
  '(s6, dynamic_node_properties) <- opt_field fields_C md s5 ;;
  '(s7, distribution_mode) <- opt_field distribution_mode_C md s6 ;;
  '(s8, filter) <- opt_field filter_set_C md s7 ;;
  '(s9, default_outcome) <- opt_field outcome_C md s8 ;;
  '(s10, outcomes) <- opt_field symbols_C md s9 ;;
  '(s11, capabilities) <- opt_field symbols_C md s10 ;;
  Ok (remainder, MkSource address durable expiry_policy timeout dynamic dynamic_node_properties distribution_mode filter default_outcome outcomes capabilities).

(** content size, [encoded_size_source_inner] (lines 3533-3553) and [encode_source_inner] (lines 3554-3589);
    FIELD_COUNT: lines 3372-3408. *)
Definition source_content_size (v : source_t) : Z :=
  0
  + e_size (c_E (option_C bstr_C)) (source_address v)
  + e_size (c_E terminus_durability_C) (source_durable v)
  + e_size (c_E terminus_expiry_policy_C) (source_expiry_policy v)
  + e_size (c_E u32_C) (source_timeout v)
  + e_size (c_E bool_C) (source_dynamic v)
  + e_size (c_E (option_C fields_C)) (source_dynamic_node_properties v)
  + e_size (c_E (option_C distribution_mode_C)) (source_distribution_mode v)
  + e_size (c_E (option_C filter_set_C)) (source_filter v)
  + e_size (c_E (option_C outcome_C)) (source_default_outcome v)
  + e_size (c_E (option_C symbols_C)) (source_outcomes v)
  + e_size (c_E (option_C symbols_C)) (source_capabilities v).
Definition source_size (v : source_t) : Z := composite_size (source_content_size v).
Definition source_enc (v : source_t) : list wop :=
  composite_header 40 11 (source_content_size v)
  ++ e_enc (c_E (option_C bstr_C)) (source_address v)
  ++ e_enc (c_E terminus_durability_C) (source_durable v)
  ++ e_enc (c_E terminus_expiry_policy_C) (source_expiry_policy v)
  ++ e_enc (c_E u32_C) (source_timeout v)
  ++ e_enc (c_E bool_C) (source_dynamic v)
  ++ e_enc (c_E (option_C fields_C)) (source_dynamic_node_properties v)
  ++ e_enc (c_E (option_C distribution_mode_C)) (source_distribution_mode v)
  ++ e_enc (c_E (option_C filter_set_C)) (source_filter v)
  ++ e_enc (c_E (option_C outcome_C)) (source_default_outcome v)
  ++ e_enc (c_E (option_C symbols_C)) (source_outcomes v)
  ++ e_enc (c_E (option_C symbols_C)) (source_capabilities v).

(** [DecodeFormatted for Source]: lines 3590-3604; [Encode for Source]: lines 3605-3612. *)
Definition source_dec : dec source_t := composite_dec 40 "amqp:source:list" decode_source_inner.
Definition source_C : codec source_t := MkCodec (MkEnc source_size source_enc) source_dec.

(** ** [Target]: definitions.rs lines 3614-3622 *)
Record target_t : Type := MkTarget {
  target_address : option bytes;
  target_durable : terminus_durability;
  target_expiry_policy : terminus_expiry_policy;
  target_timeout : Z;
  target_dynamic : bool;
  target_dynamic_node_properties : option (list (symbol * variant));
  target_capabilities : option (list symbol)
}.

(** [decode_target_inner]: lines 3649-3731. *)
Definition decode_target_inner (md : mode) (inp : bytes) : res (bytes * target_t) :=
  '(s0, remainder) <- open_list md inp ;;
  '(s1, address) <- opt_field bstr_C md s0 ;;
  '(s2, durable) <- def_field terminus_durability_C TerminusDurability_None md s1 ;;
  '(s3, expiry_policy) <- def_field terminus_expiry_policy_C TerminusExpiryPolicy_SessionEnd md s2 ;;
  '(s4, timeout) <- def_field u32_C 0 md s3 ;;
  '(s5, dynamic) <- def_field bool_C false md s4 ;;
  '(s6, dynamic_node_properties) <- opt_field fields_C md s5 ;;
  '(s7, capabilities) <- opt_field symbols_C md s6 ;;
  Ok (remainder, MkTarget address durable expiry_policy timeout dynamic dynamic_node_properties capabilities).

(** content size, [encoded_size_target_inner] (lines 3732-3748) and [encode_target_inner] (lines 3749-3776);
    FIELD_COUNT: lines 3623-3647. *)
Definition target_content_size (v : target_t) : Z :=
  0
  + e_size (c_E (option_C bstr_C)) (target_address v)
  + e_size (c_E terminus_durability_C) (target_durable v)
  + e_size (c_E terminus_expiry_policy_C) (target_expiry_policy v)
  + e_size (c_E u32_C) (target_timeout v)
  + e_size (c_E bool_C) (target_dynamic v)
  + e_size (c_E (option_C fields_C)) (target_dynamic_node_properties v)
  + e_size (c_E (option_C symbols_C)) (target_capabilities v).
Definition target_size (v : target_t) : Z := composite_size (target_content_size v).
Definition target_enc (v : target_t) : list wop :=
  composite_header 41 7 (target_content_size v)
  ++ e_enc (c_E (option_C bstr_C)) (target_address v)
  ++ e_enc (c_E terminus_durability_C) (target_durable v)
  ++ e_enc (c_E terminus_expiry_policy_C) (target_expiry_policy v)
  ++ e_enc (c_E u32_C) (target_timeout v)
  ++ e_enc (c_E bool_C) (target_dynamic v)
  ++ e_enc (c_E (option_C fields_C)) (target_dynamic_node_properties v)
  ++ e_enc (c_E (option_C symbols_C)) (target_capabilities v).

(** [DecodeFormatted for Target]: lines 3777-3791; [Encode for Target]: lines 3792-3799. *)
Definition target_dec : dec target_t := composite_dec 41 "amqp:target:list" decode_target_inner.
Definition target_C : codec target_t := MkCodec (MkEnc target_size target_enc) target_dec.

(** ** [Open]: definitions.rs lines 1186-1197 *)
Record open_t : Type := MkOpen {
  open_container_id : bytes;
  open_hostname : option bytes;
  open_max_frame_size : Z;
  open_channel_max : Z;
  open_idle_time_out : option Z;
  open_outgoing_locales : option (list symbol);
  open_incoming_locales : option (list symbol);
  open_offered_capabilities : option (list symbol);
  open_desired_capabilities : option (list symbol);
  open_properties : option (list (symbol * variant))
}.

(** [decode_open_inner]: lines 1233-1345. *)
Definition decode_open_inner (md : mode) (inp : bytes) : res (bytes * open_t) :=
  '(s0, remainder) <- open_list md inp ;;
  '(s1, container_id) <- req_field "container_id" bstr_C md s0 ;;
  '(s2, hostname) <- opt_field bstr_C md s1 ;;
  '(s3, max_frame_size) <- def_field u32_C 4294967295 md s2 ;;
  '(s4, channel_max) <- def_field u16_C 65535 md s3 ;;
  '(s5, idle_time_out) <- opt_field u32_C md s4 ;;
  '(s6, outgoing_locales) <- opt_field symbols_C md s5 ;;
  '(s7, incoming_locales) <- opt_field symbols_C md s6 ;;
  '(s8, offered_capabilities) <- opt_field symbols_C md s7 ;;
  '(s9, desired_capabilities) <- opt_field symbols_C md s8 ;;
  '(s10, properties) <- opt_field fields_C md s9 ;;
  Ok (remainder, MkOpen container_id hostname max_frame_size channel_max idle_time_out outgoing_locales incoming_locales offered_capabilities desired_capabilities properties).

(** content size, [encoded_size_open_inner] (lines 1346-1365) and [encode_open_inner] (lines 1366-1399);
    FIELD_COUNT: lines 1198-1231. *)
Definition open_content_size (v : open_t) : Z :=
  0
  + e_size (c_E bstr_C) (open_container_id v)
  + e_size (c_E (option_C bstr_C)) (open_hostname v)
  + e_size (c_E u32_C) (open_max_frame_size v)
  + e_size (c_E u16_C) (open_channel_max v)
  + e_size (c_E (option_C u32_C)) (open_idle_time_out v)
  + e_size (c_E (option_C symbols_C)) (open_outgoing_locales v)
  + e_size (c_E (option_C symbols_C)) (open_incoming_locales v)
  + e_size (c_E (option_C symbols_C)) (open_offered_capabilities v)
  + e_size (c_E (option_C symbols_C)) (open_desired_capabilities v)
  + e_size (c_E (option_C fields_C)) (open_properties v).
Definition open_size (v : open_t) : Z := composite_size (open_content_size v).
Definition open_enc (v : open_t) : list wop :=
  composite_header 16 10 (open_content_size v)
  ++ e_enc (c_E bstr_C) (open_container_id v)
  ++ e_enc (c_E (option_C bstr_C)) (open_hostname v)
  ++ e_enc (c_E u32_C) (open_max_frame_size v)
  ++ e_enc (c_E u16_C) (open_channel_max v)
  ++ e_enc (c_E (option_C u32_C)) (open_idle_time_out v)
  ++ e_enc (c_E (option_C symbols_C)) (open_outgoing_locales v)
  ++ e_enc (c_E (option_C symbols_C)) (open_incoming_locales v)
  ++ e_enc (c_E (option_C symbols_C)) (open_offered_capabilities v)
  ++ e_enc (c_E (option_C symbols_C)) (open_desired_capabilities v)
  ++ e_enc (c_E (option_C fields_C)) (open_properties v).

(** [DecodeFormatted for Open]: lines 1400-1414; [Encode for Open]: lines 1415-1422. *)
Definition open_dec : dec open_t := composite_dec 16 "amqp:open:list" decode_open_inner.
Definition open_C : codec open_t := MkCodec (MkEnc open_size open_enc) open_dec.

(** ** [Begin]: definitions.rs lines 1424-1433 *)
Record begin_t : Type := MkBegin {
  begin_remote_channel : option Z;
  begin_next_outgoing_id : Z;
  begin_incoming_window : Z;
  begin_outgoing_window : Z;
  begin_handle_max : Z;
  begin_offered_capabilities : option (list symbol);
  begin_desired_capabilities : option (list symbol);
  begin_properties : option (list (symbol * variant))
}.

(** [decode_begin_inner]: lines 1463-1555. *)
Definition decode_begin_inner (md : mode) (inp : bytes) : res (bytes * begin_t) :=
  '(s0, remainder) <- open_list md inp ;;
  '(s1, remote_channel) <- opt_field u16_C md s0 ;;
  '(s2, next_outgoing_id) <- req_field "next_outgoing_id" u32_C md s1 ;;
  '(s3, incoming_window) <- req_field "incoming_window" u32_C md s2 ;;
  '(s4, outgoing_window) <- req_field "outgoing_window" u32_C md s3 ;;
  '(s5, handle_max) <- def_field u32_C 4294967295 md s4 ;;
  '(s6, offered_capabilities) <- opt_field symbols_C md s5 ;;
  '(s7, desired_capabilities) <- opt_field symbols_C md s6 ;;
  '(s8, properties) <- opt_field fields_C md s7 ;;
  Ok (remainder, MkBegin remote_channel next_outgoing_id incoming_window outgoing_window handle_max offered_capabilities desired_capabilities properties).

(** content size, [encoded_size_begin_inner] (lines 1556-1573) and [encode_begin_inner] (lines 1574-1603);
    FIELD_COUNT: lines 1434-1461. *)
Definition begin_content_size (v : begin_t) : Z :=
  0
  + e_size (c_E (option_C u16_C)) (begin_remote_channel v)
  + e_size (c_E u32_C) (begin_next_outgoing_id v)
  + e_size (c_E u32_C) (begin_incoming_window v)
  + e_size (c_E u32_C) (begin_outgoing_window v)
  + e_size (c_E u32_C) (begin_handle_max v)
  + e_size (c_E (option_C symbols_C)) (begin_offered_capabilities v)
  + e_size (c_E (option_C symbols_C)) (begin_desired_capabilities v)
  + e_size (c_E (option_C fields_C)) (begin_properties v).
Definition begin_size (v : begin_t) : Z := composite_size (begin_content_size v).
Definition begin_enc (v : begin_t) : list wop :=
  composite_header 17 8 (begin_content_size v)
  ++ e_enc (c_E (option_C u16_C)) (begin_remote_channel v)
  ++ e_enc (c_E u32_C) (begin_next_outgoing_id v)
  ++ e_enc (c_E u32_C) (begin_incoming_window v)
  ++ e_enc (c_E u32_C) (begin_outgoing_window v)
  ++ e_enc (c_E u32_C) (begin_handle_max v)
  ++ e_enc (c_E (option_C symbols_C)) (begin_offered_capabilities v)
  ++ e_enc (c_E (option_C symbols_C)) (begin_desired_capabilities v)
  ++ e_enc (c_E (option_C fields_C)) (begin_properties v).

(** [DecodeFormatted for Begin]: lines 1604-1618; [Encode for Begin]: lines 1619-1626. *)
Definition begin_dec : dec begin_t := composite_dec 17 "amqp:begin:list" decode_begin_inner.
Definition begin_C : codec begin_t := MkCodec (MkEnc begin_size begin_enc) begin_dec.

(** ** [Attach]: definitions.rs lines 1628-1643 *)
Record attach_t : Type := MkAttach {
  attach_name : bytes;
  attach_handle : Z;
  attach_role : role;
  attach_snd_settle_mode : sender_settle_mode;
  attach_rcv_settle_mode : receiver_settle_mode;
  attach_source : option source_t;
  attach_target : option target_t;
  attach_unsettled : option (list (variant * variant));
  attach_incomplete_unsettled : bool;
  attach_initial_delivery_count : option Z;
  attach_max_message_size : option Z;
  attach_offered_capabilities : option (list symbol);
  attach_desired_capabilities : option (list symbol);
  attach_properties : option (list (symbol * variant))
}.

(** [decode_attach_inner]: lines 1691-1843. *)
Definition decode_attach_inner (md : mode) (inp : bytes) : res (bytes * attach_t) :=
  '(s0, remainder) <- open_list md inp ;;
  '(s1, name) <- req_field "name" bstr_C md s0 ;;
  '(s2, handle) <- req_field "handle" u32_C md s1 ;;
  '(s3, role) <- req_field "role" role_C md s2 ;;
  '(s4, snd_settle_mode) <- def_field sender_settle_mode_C SenderSettleMode_Mixed md s3 ;;
  '(s5, rcv_settle_mode) <- def_field receiver_settle_mode_C ReceiverSettleMode_First md s4 ;;
  '(s6, source) <- opt_field source_C md s5 ;;
  '(s7, target) <- opt_field target_C md s6 ;;
  '(s8, unsettled) <- opt_field vmap_C md s7 ;;
  '(s9, incomplete_unsettled) <- def_field bool_C false md s8 ;;
  '(s10, initial_delivery_count) <- opt_field u32_C md s9 ;;
  '(s11, max_message_size) <- opt_field u64_C md s10 ;;
  '(s12, offered_capabilities) <- opt_field symbols_C md s11 ;;
  '(s13, desired_capabilities) <- opt_field symbols_C md s12 ;;
  '(s14, properties) <- opt_field fields_C md s13 ;;
  Ok (remainder, MkAttach name handle role snd_settle_mode rcv_settle_mode source target unsettled incomplete_unsettled initial_delivery_count max_message_size offered_capabilities desired_capabilities properties).

(** content size, [encoded_size_attach_inner] (lines 1844-1867) and [encode_attach_inner] (lines 1868-1909);
    FIELD_COUNT: lines 1644-1689. *)
Definition attach_content_size (v : attach_t) : Z :=
  0
  + e_size (c_E bstr_C) (attach_name v)
  + e_size (c_E u32_C) (attach_handle v)
  + e_size (c_E role_C) (attach_role v)
  + e_size (c_E sender_settle_mode_C) (attach_snd_settle_mode v)
  + e_size (c_E receiver_settle_mode_C) (attach_rcv_settle_mode v)
  + e_size (c_E (option_C source_C)) (attach_source v)
  + e_size (c_E (option_C target_C)) (attach_target v)
  + e_size (c_E (option_C vmap_C)) (attach_unsettled v)
  + e_size (c_E bool_C) (attach_incomplete_unsettled v)
  + e_size (c_E (option_C u32_C)) (attach_initial_delivery_count v)
  + e_size (c_E (option_C u64_C)) (attach_max_message_size v)
  + e_size (c_E (option_C symbols_C)) (attach_offered_capabilities v)
  + e_size (c_E (option_C symbols_C)) (attach_desired_capabilities v)
  + e_size (c_E (option_C fields_C)) (attach_properties v).
Definition attach_size (v : attach_t) : Z := composite_size (attach_content_size v).
Definition attach_enc (v : attach_t) : list wop :=
  composite_header 18 14 (attach_content_size v)
  ++ e_enc (c_E bstr_C) (attach_name v)
  ++ e_enc (c_E u32_C) (attach_handle v)
  ++ e_enc (c_E role_C) (attach_role v)
  ++ e_enc (c_E sender_settle_mode_C) (attach_snd_settle_mode v)
  ++ e_enc (c_E receiver_settle_mode_C) (attach_rcv_settle_mode v)
  ++ e_enc (c_E (option_C source_C)) (attach_source v)
  ++ e_enc (c_E (option_C target_C)) (attach_target v)
  ++ e_enc (c_E (option_C vmap_C)) (attach_unsettled v)
  ++ e_enc (c_E bool_C) (attach_incomplete_unsettled v)
  ++ e_enc (c_E (option_C u32_C)) (attach_initial_delivery_count v)
  ++ e_enc (c_E (option_C u64_C)) (attach_max_message_size v)
  ++ e_enc (c_E (option_C symbols_C)) (attach_offered_capabilities v)
  ++ e_enc (c_E (option_C symbols_C)) (attach_desired_capabilities v)
  ++ e_enc (c_E (option_C fields_C)) (attach_properties v).

(** [DecodeFormatted for Attach]: lines 1910-1924; [Encode for Attach]: lines 1925-1932. *)
Definition attach_dec : dec attach_t := composite_dec 18 "amqp:attach:list" decode_attach_inner.
Definition attach_C : codec attach_t := MkCodec (MkEnc attach_size attach_enc) attach_dec.

(** ** [Flow]: definitions.rs lines 1934-1946 *)
Record flow_t : Type := MkFlow {
  flow_next_incoming_id : option Z;
  flow_incoming_window : Z;
  flow_next_outgoing_id : Z;
  flow_outgoing_window : Z;
  flow_handle : option Z;
  flow_delivery_count : option Z;
  flow_link_credit : option Z;
  flow_available : option Z;
  flow_drain : bool;
  flow_echo : bool;
  flow_properties : option (list (symbol * variant))
}.

(** [decode_flow_inner]: lines 1985-2107. *)
Definition decode_flow_inner (md : mode) (inp : bytes) : res (bytes * flow_t) :=
  '(s0, remainder) <- open_list md inp ;;
  '(s1, next_incoming_id) <- opt_field u32_C md s0 ;;
  '(s2, incoming_window) <- req_field "incoming_window" u32_C md s1 ;;
  '(s3, next_outgoing_id) <- req_field "next_outgoing_id" u32_C md s2 ;;
  '(s4, outgoing_window) <- req_field "outgoing_window" u32_C md s3 ;;
  '(s5, handle) <- opt_field u32_C md s4 ;;
  '(s6, delivery_count) <- opt_field u32_C md s5 ;;
  '(s7, link_credit) <- opt_field u32_C md s6 ;;
  '(s8, available) <- opt_field u32_C md s7 ;;
  '(s9, drain) <- def_field bool_C false md s8 ;;
  '(s10, echo) <- def_field bool_C false md s9 ;;
  '(s11, properties) <- opt_field fields_C md s10 ;;
  Ok (remainder, MkFlow next_incoming_id incoming_window next_outgoing_id outgoing_window handle delivery_count link_credit available drain echo properties).

(** content size, [encoded_size_flow_inner] (lines 2108-2128) and [encode_flow_inner] (lines 2129-2164);
    FIELD_COUNT: lines 1947-1983. *)
Definition flow_content_size (v : flow_t) : Z :=
  0
  + e_size (c_E (option_C u32_C)) (flow_next_incoming_id v)
  + e_size (c_E u32_C) (flow_incoming_window v)
  + e_size (c_E u32_C) (flow_next_outgoing_id v)
  + e_size (c_E u32_C) (flow_outgoing_window v)
  + e_size (c_E (option_C u32_C)) (flow_handle v)
  + e_size (c_E (option_C u32_C)) (flow_delivery_count v)
  + e_size (c_E (option_C u32_C)) (flow_link_credit v)
  + e_size (c_E (option_C u32_C)) (flow_available v)
  + e_size (c_E bool_C) (flow_drain v)
  + e_size (c_E bool_C) (flow_echo v)
  + e_size (c_E (option_C fields_C)) (flow_properties v).
Definition flow_size (v : flow_t) : Z := composite_size (flow_content_size v).
Definition flow_enc (v : flow_t) : list wop :=
  composite_header 19 11 (flow_content_size v)
  ++ e_enc (c_E (option_C u32_C)) (flow_next_incoming_id v)
  ++ e_enc (c_E u32_C) (flow_incoming_window v)
  ++ e_enc (c_E u32_C) (flow_next_outgoing_id v)
  ++ e_enc (c_E u32_C) (flow_outgoing_window v)
  ++ e_enc (c_E (option_C u32_C)) (flow_handle v)
  ++ e_enc (c_E (option_C u32_C)) (flow_delivery_count v)
  ++ e_enc (c_E (option_C u32_C)) (flow_link_credit v)
  ++ e_enc (c_E (option_C u32_C)) (flow_available v)
  ++ e_enc (c_E bool_C) (flow_drain v)
  ++ e_enc (c_E bool_C) (flow_echo v)
  ++ e_enc (c_E (option_C fields_C)) (flow_properties v).

(** [DecodeFormatted for Flow]: lines 2165-2179; [Encode for Flow]: lines 2180-2187. *)
Definition flow_dec : dec flow_t := composite_dec 19 "amqp:flow:list" decode_flow_inner.
Definition flow_C : codec flow_t := MkCodec (MkEnc flow_size flow_enc) flow_dec.

(** ** [Disposition]: definitions.rs lines 2460-2467 *)
Record disposition_t : Type := MkDisposition {
  disposition_role : role;
  disposition_first : Z;
  disposition_last : option Z;
  disposition_settled : bool;
  disposition_state : option delivery_state;
  disposition_batchable : bool
}.

(** [decode_disposition_inner]: lines 2491-2563. *)
Definition decode_disposition_inner (md : mode) (inp : bytes) : res (bytes * disposition_t) :=
  '(s0, remainder) <- open_list md inp ;;
  '(s1, role) <- req_field "role" role_C md s0 ;;
  '(s2, first) <- req_field "first" u32_C md s1 ;;
  '(s3, last) <- opt_field u32_C md s2 ;;
  '(s4, settled) <- def_field bool_C false md s3 ;;
  '(s5, state) <- opt_field delivery_state_C md s4 ;;
  '(s6, batchable) <- def_field bool_C false md s5 ;;
  Ok (remainder, MkDisposition role first last settled state batchable).

(** content size, [encoded_size_disposition_inner] (lines 2564-2579) and [encode_disposition_inner] (lines 2580-2605);
    FIELD_COUNT: lines 2468-2489. *)
Definition disposition_content_size (v : disposition_t) : Z :=
  0
  + e_size (c_E role_C) (disposition_role v)
  + e_size (c_E u32_C) (disposition_first v)
  + e_size (c_E (option_C u32_C)) (disposition_last v)
  + e_size (c_E bool_C) (disposition_settled v)
  + e_size (c_E (option_C delivery_state_C)) (disposition_state v)
  + e_size (c_E bool_C) (disposition_batchable v).
Definition disposition_size (v : disposition_t) : Z := composite_size (disposition_content_size v).
Definition disposition_enc (v : disposition_t) : list wop :=
  composite_header 21 6 (disposition_content_size v)
  ++ e_enc (c_E role_C) (disposition_role v)
  ++ e_enc (c_E u32_C) (disposition_first v)
  ++ e_enc (c_E (option_C u32_C)) (disposition_last v)
  ++ e_enc (c_E bool_C) (disposition_settled v)
  ++ e_enc (c_E (option_C delivery_state_C)) (disposition_state v)
  ++ e_enc (c_E bool_C) (disposition_batchable v).

(** [DecodeFormatted for Disposition]: lines 2606-2620; [Encode for Disposition]: lines 2621-2628. *)
Definition disposition_dec : dec disposition_t := composite_dec 21 "amqp:disposition:list" decode_disposition_inner.
Definition disposition_C : codec disposition_t := MkCodec (MkEnc disposition_size disposition_enc) disposition_dec.

(** ** [Detach]: definitions.rs lines 2630-2634 *)
Record detach_t : Type := MkDetach {
  detach_handle : Z;
  detach_closed : bool;
  detach_error : option error_t
}.

(** [decode_detach_inner]: lines 2649-2691. *)
Definition decode_detach_inner (md : mode) (inp : bytes) : res (bytes * detach_t) :=
  '(s0, remainder) <- open_list md inp ;;
  '(s1, handle) <- req_field "handle" u32_C md s0 ;;
  '(s2, closed) <- def_field bool_C false md s1 ;;
  '(s3, error) <- opt_field error_C md s2 ;;
  Ok (remainder, MkDetach handle closed error).

(** content size, [encoded_size_detach_inner] (lines 2692-2702) and [encode_detach_inner] (lines 2703-2720);
    FIELD_COUNT: lines 2635-2647. *)
Definition detach_content_size (v : detach_t) : Z :=
  0
  + e_size (c_E u32_C) (detach_handle v)
  + e_size (c_E bool_C) (detach_closed v)
  + e_size (c_E (option_C error_C)) (detach_error v).
Definition detach_size (v : detach_t) : Z := composite_size (detach_content_size v).
Definition detach_enc (v : detach_t) : list wop :=
  composite_header 22 3 (detach_content_size v)
  ++ e_enc (c_E u32_C) (detach_handle v)
  ++ e_enc (c_E bool_C) (detach_closed v)
  ++ e_enc (c_E (option_C error_C)) (detach_error v).

(** [DecodeFormatted for Detach]: lines 2721-2735; [Encode for Detach]: lines 2736-2743. *)
Definition detach_dec : dec detach_t := composite_dec 22 "amqp:detach:list" decode_detach_inner.
Definition detach_C : codec detach_t := MkCodec (MkEnc detach_size detach_enc) detach_dec.

(** ** [End]: definitions.rs lines 2745-2747 *)
Record end_t : Type := MkEnd {
  end_error : option error_t
}.

(** [decode_end_inner]: lines 2756-2773. *)
Definition decode_end_inner (md : mode) (inp : bytes) : res (bytes * end_t) :=
  '(s0, remainder) <- open_list md inp ;;
  '(s1, error) <- opt_field error_C md s0 ;;
  Ok (remainder, MkEnd error).

(** content size, [encoded_size_end_inner] (lines 2774-2783) and [encode_end_inner] (lines 2784-2798);
    FIELD_COUNT: lines 2748-2754. *)
Definition end_content_size (v : end_t) : Z :=
  0
  + e_size (c_E (option_C error_C)) (end_error v).
Definition end_size (v : end_t) : Z := composite_size (end_content_size v).
Definition end_enc (v : end_t) : list wop :=
  composite_header 23 1 (end_content_size v)
  ++ e_enc (c_E (option_C error_C)) (end_error v).

(** [DecodeFormatted for End]: lines 2799-2813; [Encode for End]: lines 2814-2821. *)
Definition end_dec : dec end_t := composite_dec 23 "amqp:end:list" decode_end_inner.
Definition end_C : codec end_t := MkCodec (MkEnc end_size end_enc) end_dec.

(** ** [Close]: definitions.rs lines 2823-2825 *)
Record close_t : Type := MkClose {
  close_error : option error_t
}.

(** [decode_close_inner]: lines 2834-2851. *)
Definition decode_close_inner (md : mode) (inp : bytes) : res (bytes * close_t) :=
  '(s0, remainder) <- open_list md inp ;;
  '(s1, error) <- opt_field error_C md s0 ;;
  Ok (remainder, MkClose error).

(** content size, [encoded_size_close_inner] (lines 2852-2861) and [encode_close_inner] (lines 2862-2876);
    FIELD_COUNT: lines 2826-2832. *)
Definition close_content_size (v : close_t) : Z :=
  0
  + e_size (c_E (option_C error_C)) (close_error v).
Definition close_size (v : close_t) : Z := composite_size (close_content_size v).
Definition close_enc (v : close_t) : list wop :=
  composite_header 24 1 (close_content_size v)
  ++ e_enc (c_E (option_C error_C)) (close_error v).

(** [DecodeFormatted for Close]: lines 2877-2891; [Encode for Close]: lines 2892-2899. *)
Definition close_dec : dec close_t := composite_dec 24 "amqp:close:list" decode_close_inner.
Definition close_C : codec close_t := MkCodec (MkEnc close_size close_enc) close_dec.

(** ** [SaslMechanisms]: definitions.rs lines 2901-2903 *)
Record sasl_mechanisms_t : Type := MkSaslMechanisms {
  sasl_mechanisms_sasl_server_mechanisms : list symbol
}.

(** [decode_sasl_mechanisms_inner]: lines 2912-2936. *)
Definition decode_sasl_mechanisms_inner (md : mode) (inp : bytes) : res (bytes * sasl_mechanisms_t) :=
  '(s0, remainder) <- open_list md inp ;;
  '(s1, sasl_server_mechanisms) <- req_field "sasl_server_mechanisms" symbols_C md s0 ;;
  Ok (remainder, MkSaslMechanisms sasl_server_mechanisms).

(** content size, [encoded_size_sasl_mechanisms_inner] (lines 2937-2946) and [encode_sasl_mechanisms_inner] (lines 2947-2961);
    FIELD_COUNT: lines 2904-2910. *)
Definition sasl_mechanisms_content_size (v : sasl_mechanisms_t) : Z :=
  0
  + e_size (c_E symbols_C) (sasl_mechanisms_sasl_server_mechanisms v).
Definition sasl_mechanisms_size (v : sasl_mechanisms_t) : Z := composite_size (sasl_mechanisms_content_size v).
Definition sasl_mechanisms_enc (v : sasl_mechanisms_t) : list wop :=
  composite_header 64 1 (sasl_mechanisms_content_size v)
  ++ e_enc (c_E symbols_C) (sasl_mechanisms_sasl_server_mechanisms v).

(** [DecodeFormatted for SaslMechanisms]: lines 2962-2976; [Encode for SaslMechanisms]: lines 2977-2984. *)
Definition sasl_mechanisms_dec : dec sasl_mechanisms_t := composite_dec 64 "amqp:sasl-mechanisms:list" decode_sasl_mechanisms_inner.
Definition sasl_mechanisms_C : codec sasl_mechanisms_t := MkCodec (MkEnc sasl_mechanisms_size sasl_mechanisms_enc) sasl_mechanisms_dec.

(** ** [SaslInit]: definitions.rs lines 2986-2990 *)
Record sasl_init_t : Type := MkSaslInit {
  sasl_init_mechanism : symbol;
  sasl_init_initial_response : option bytes;
  sasl_init_hostname : option bytes
}.

(** [decode_sasl_init_inner]: lines 3005-3047. *)
Definition decode_sasl_init_inner (md : mode) (inp : bytes) : res (bytes * sasl_init_t) :=
  '(s0, remainder) <- open_list md inp ;;
  '(s1, mechanism) <- req_field "mechanism" symbol_C md s0 ;;
  '(s2, initial_response) <- opt_field bin_C md s1 ;;
  '(s3, hostname) <- opt_field bstr_C md s2 ;;
  Ok (remainder, MkSaslInit mechanism initial_response hostname).

(** content size, [encoded_size_sasl_init_inner] (lines 3048-3060) and [encode_sasl_init_inner] (lines 3061-3080);
    FIELD_COUNT: lines 2991-3003. *)
Definition sasl_init_content_size (v : sasl_init_t) : Z :=
  0
  + e_size (c_E symbol_C) (sasl_init_mechanism v)
  + e_size (c_E (option_C bin_C)) (sasl_init_initial_response v)
  + e_size (c_E (option_C bstr_C)) (sasl_init_hostname v).
Definition sasl_init_size (v : sasl_init_t) : Z := composite_size (sasl_init_content_size v).
Definition sasl_init_enc (v : sasl_init_t) : list wop :=
  composite_header 65 3 (sasl_init_content_size v)
  ++ e_enc (c_E symbol_C) (sasl_init_mechanism v)
  ++ e_enc (c_E (option_C bin_C)) (sasl_init_initial_response v)
  ++ e_enc (c_E (option_C bstr_C)) (sasl_init_hostname v).

(** [DecodeFormatted for SaslInit]: lines 3081-3095; [Encode for SaslInit]: lines 3096-3103. *)
Definition sasl_init_dec : dec sasl_init_t := composite_dec 65 "amqp:sasl-init:list" decode_sasl_init_inner.
Definition sasl_init_C : codec sasl_init_t := MkCodec (MkEnc sasl_init_size sasl_init_enc) sasl_init_dec.

(** ** [SaslChallenge]: definitions.rs lines 3105-3107 *)
Record sasl_challenge_t : Type := MkSaslChallenge {
  sasl_challenge_challenge : bytes
}.

(** [decode_sasl_challenge_inner]: lines 3116-3133. *)
Definition decode_sasl_challenge_inner (md : mode) (inp : bytes) : res (bytes * sasl_challenge_t) :=
  '(s0, remainder) <- open_list md inp ;;
  '(s1, challenge) <- req_field "challenge" bin_C md s0 ;;
  Ok (remainder, MkSaslChallenge challenge).

(** content size, [encoded_size_sasl_challenge_inner] (lines 3134-3143) and [encode_sasl_challenge_inner] (lines 3144-3158);
    FIELD_COUNT: lines 3108-3114. *)
Definition sasl_challenge_content_size (v : sasl_challenge_t) : Z :=
  0
  + e_size (c_E bin_C) (sasl_challenge_challenge v).
Definition sasl_challenge_size (v : sasl_challenge_t) : Z := composite_size (sasl_challenge_content_size v).
Definition sasl_challenge_enc (v : sasl_challenge_t) : list wop :=
  composite_header 66 1 (sasl_challenge_content_size v)
  ++ e_enc (c_E bin_C) (sasl_challenge_challenge v).

(** [DecodeFormatted for SaslChallenge]: lines 3159-3173; [Encode for SaslChallenge]: lines 3174-3181. *)
Definition sasl_challenge_dec : dec sasl_challenge_t := composite_dec 66 "amqp:sasl-challenge:list" decode_sasl_challenge_inner.
Definition sasl_challenge_C : codec sasl_challenge_t := MkCodec (MkEnc sasl_challenge_size sasl_challenge_enc) sasl_challenge_dec.

(** ** [SaslResponse]: definitions.rs lines 3183-3185 *)
Record sasl_response_t : Type := MkSaslResponse {
  sasl_response_response : bytes
}.

(** [decode_sasl_response_inner]: lines 3194-3211. *)
Definition decode_sasl_response_inner (md : mode) (inp : bytes) : res (bytes * sasl_response_t) :=
  '(s0, remainder) <- open_list md inp ;;
  '(s1, response) <- req_field "response" bin_C md s0 ;;
  Ok (remainder, MkSaslResponse response).

(** content size, [encoded_size_sasl_response_inner] (lines 3212-3221) and [encode_sasl_response_inner] (lines 3222-3236);
    FIELD_COUNT: lines 3186-3192. *)
Definition sasl_response_content_size (v : sasl_response_t) : Z :=
  0
  + e_size (c_E bin_C) (sasl_response_response v).
Definition sasl_response_size (v : sasl_response_t) : Z := composite_size (sasl_response_content_size v).
Definition sasl_response_enc (v : sasl_response_t) : list wop :=
  composite_header 67 1 (sasl_response_content_size v)
  ++ e_enc (c_E bin_C) (sasl_response_response v).

(** [DecodeFormatted for SaslResponse]: lines 3237-3251; [Encode for SaslResponse]: lines 3252-3259. *)
Definition sasl_response_dec : dec sasl_response_t := composite_dec 67 "amqp:sasl-response:list" decode_sasl_response_inner.
Definition sasl_response_C : codec sasl_response_t := MkCodec (MkEnc sasl_response_size sasl_response_enc) sasl_response_dec.

(** ** [SaslOutcome]: definitions.rs lines 3261-3264 *)
Record sasl_outcome_t : Type := MkSaslOutcome {
  sasl_outcome_code : sasl_code;
  sasl_outcome_additional_data : option bytes
}.

(** [decode_sasl_outcome_inner]: lines 3276-3308. *)
Definition decode_sasl_outcome_inner (md : mode) (inp : bytes) : res (bytes * sasl_outcome_t) :=
  '(s0, remainder) <- open_list md inp ;;
  '(s1, code) <- req_field "code" sasl_code_C md s0 ;;
  '(s2, additional_data) <- opt_field bin_C md s1 ;;
  Ok (remainder, MkSaslOutcome code additional_data).

(** content size, [encoded_size_sasl_outcome_inner] (lines 3309-3318) and [encode_sasl_outcome_inner] (lines 3319-3334);
    FIELD_COUNT: lines 3265-3274. *)
Definition sasl_outcome_content_size (v : sasl_outcome_t) : Z :=
  0
  + e_size (c_E sasl_code_C) (sasl_outcome_code v)
  + e_size (c_E (option_C bin_C)) (sasl_outcome_additional_data v).
Definition sasl_outcome_size (v : sasl_outcome_t) : Z := composite_size (sasl_outcome_content_size v).
Definition sasl_outcome_enc (v : sasl_outcome_t) : list wop :=
  composite_header 68 2 (sasl_outcome_content_size v)
  ++ e_enc (c_E sasl_code_C) (sasl_outcome_code v)
  ++ e_enc (c_E (option_C bin_C)) (sasl_outcome_additional_data v).

(** [DecodeFormatted for SaslOutcome]: lines 3335-3349; [Encode for SaslOutcome]: lines 3350-3357. *)
Definition sasl_outcome_dec : dec sasl_outcome_t := composite_dec 68 "amqp:sasl-outcome:list" decode_sasl_outcome_inner.
Definition sasl_outcome_C : codec sasl_outcome_t := MkCodec (MkEnc sasl_outcome_size sasl_outcome_enc) sasl_outcome_dec.

(** ** [SaslFrameBody]: definitions.rs lines 198-204 *)
Inductive sasl_frame_body :=
| SB_SaslMechanisms (v : sasl_mechanisms_t)
| SB_SaslInit (v : sasl_init_t)
| SB_SaslChallenge (v : sasl_challenge_t)
| SB_SaslResponse (v : sasl_response_t)
| SB_SaslOutcome (v : sasl_outcome_t).

(** [DecodeFormatted for SaslFrameBody]: lines 205-243. The descriptor selects the inner decoder. *)
Definition sasl_frame_body_select (md : mode) (d : descriptor) (inp : bytes) : res (bytes * sasl_frame_body) :=
  match d with
  | DUlong c =>
    if c =? 64 then map_res SB_SaslMechanisms (decode_sasl_mechanisms_inner md inp)
    else if c =? 65 then map_res SB_SaslInit (decode_sasl_init_inner md inp)
    else if c =? 66 then map_res SB_SaslChallenge (decode_sasl_challenge_inner md inp)
    else if c =? 67 then map_res SB_SaslResponse (decode_sasl_response_inner md inp)
    else if c =? 68 then map_res SB_SaslOutcome (decode_sasl_outcome_inner md inp)
    else Err (EInvalidDescriptor d)
  | DSymbol a =>
    if sym_is a "amqp:sasl-mechanisms:list" then map_res SB_SaslMechanisms (decode_sasl_mechanisms_inner md inp)
    else if sym_is a "amqp:sasl-init:list" then map_res SB_SaslInit (decode_sasl_init_inner md inp)
    else if sym_is a "amqp:sasl-challenge:list" then map_res SB_SaslChallenge (decode_sasl_challenge_inner md inp)
    else if sym_is a "amqp:sasl-response:list" then map_res SB_SaslResponse (decode_sasl_response_inner md inp)
    else if sym_is a "amqp:sasl-outcome:list" then map_res SB_SaslOutcome (decode_sasl_outcome_inner md inp)
    else Err (EInvalidDescriptor d)
  end.
Definition sasl_frame_body_dec : dec sasl_frame_body := fun md inp fmt =>
  _ <- validate_code fmt FC_DESCRIBED ;;
  '(inp1, d) <- decode descriptor_dec md inp ;;
  sasl_frame_body_select md d inp1.

(** [Encode for SaslFrameBody]: lines 244-263. *)
Definition sasl_frame_body_size (x : sasl_frame_body) : Z :=
  match x with
  | SB_SaslMechanisms v => sasl_mechanisms_size v
  | SB_SaslInit v => sasl_init_size v
  | SB_SaslChallenge v => sasl_challenge_size v
  | SB_SaslResponse v => sasl_response_size v
  | SB_SaslOutcome v => sasl_outcome_size v
  end.
Definition sasl_frame_body_enc (x : sasl_frame_body) : list wop :=
  match x with
  | SB_SaslMechanisms v => sasl_mechanisms_enc v
  | SB_SaslInit v => sasl_init_enc v
  | SB_SaslChallenge v => sasl_challenge_enc v
  | SB_SaslResponse v => sasl_response_enc v
  | SB_SaslOutcome v => sasl_outcome_enc v
  end.
Definition sasl_frame_body_C : codec sasl_frame_body := MkCodec (MkEnc sasl_frame_body_size sasl_frame_body_enc) sasl_frame_body_dec.

(** ** [Header]: definitions.rs lines 3801-3807 *)
Record header_t : Type := MkHeader {
  header_durable : bool;
  header_priority : Z;
  header_ttl : option Z;
  header_first_acquirer : bool;
  header_delivery_count : Z
}.

(** [decode_header_inner]: lines 3828-3890. *)
Definition decode_header_inner (md : mode) (inp : bytes) : res (bytes * header_t) :=
  '(s0, remainder) <- open_list md inp ;;
  '(s1, durable) <- def_field bool_C false md s0 ;;
  '(s2, priority) <- def_field u8_C 4 md s1 ;;
  '(s3, ttl) <- opt_field u32_C md s2 ;;
  '(s4, first_acquirer) <- def_field bool_C false md s3 ;;
  '(s5, delivery_count) <- def_field u32_C 0 md s4 ;;
  Ok (remainder, MkHeader durable priority ttl first_acquirer delivery_count).

(** content size, [encoded_size_header_inner] (lines 3891-3905) and [encode_header_inner] (lines 3906-3929);
    FIELD_COUNT: lines 3808-3826. *)
Definition header_content_size (v : header_t) : Z :=
  0
  + e_size (c_E bool_C) (header_durable v)
  + e_size (c_E u8_C) (header_priority v)
  + e_size (c_E (option_C u32_C)) (header_ttl v)
  + e_size (c_E bool_C) (header_first_acquirer v)
  + e_size (c_E u32_C) (header_delivery_count v).
Definition header_size (v : header_t) : Z := composite_size (header_content_size v).
Definition header_enc (v : header_t) : list wop :=
  composite_header 112 5 (header_content_size v)
  ++ e_enc (c_E bool_C) (header_durable v)
  ++ e_enc (c_E u8_C) (header_priority v)
  ++ e_enc (c_E (option_C u32_C)) (header_ttl v)
  ++ e_enc (c_E bool_C) (header_first_acquirer v)
  ++ e_enc (c_E u32_C) (header_delivery_count v).

(** [DecodeFormatted for Header]: lines 3930-3944; [Encode for Header]: lines 3945-3952. *)
Definition header_dec : dec header_t := composite_dec 112 "amqp:header:list" decode_header_inner.
Definition header_C : codec header_t := MkCodec (MkEnc header_size header_enc) header_dec.

(** ** [Properties]: definitions.rs lines 3954-3968 *)
Record properties_t : Type := MkProperties {
  properties_message_id : option message_id;
  properties_user_id : option bytes;
  properties_to : option bytes;
  properties_subject : option bytes;
  properties_reply_to : option bytes;
  properties_correlation_id : option message_id;
  properties_content_type : option symbol;
  properties_content_encoding : option symbol;
  properties_absolute_expiry_time : option datetime;
  properties_creation_time : option datetime;
  properties_group_id : option bytes;
  properties_group_sequence : option Z;
  properties_reply_to_group_id : option bytes
}.

(** [decode_properties_inner]: lines 4013-4155. *)
Definition decode_properties_inner (md : mode) (inp : bytes) : res (bytes * properties_t) :=
  '(s0, remainder) <- open_list md inp ;;
  '(s1, message_id) <- opt_field message_id_C md s0 ;;
  '(s2, user_id) <- opt_field bin_C md s1 ;;
  '(s3, to) <- opt_field bstr_C md s2 ;;
  '(s4, subject) <- opt_field bstr_C md s3 ;;
  '(s5, reply_to) <- opt_field bstr_C md s4 ;;
  '(s6, correlation_id) <- opt_field message_id_C md s5 ;;
  '(s7, content_type) <- opt_field symbol_C md s6 ;;
  '(s8, content_encoding) <- opt_field symbol_C md s7 ;;
  '(s9, absolute_expiry_time) <- opt_field datetime_C md s8 ;;
  '(s10, creation_time) <- opt_field datetime_C md s9 ;;
  '(s11, group_id) <- opt_field bstr_C md s10 ;;
  '(s12, group_sequence) <- opt_field u32_C md s11 ;;
  '(s13, reply_to_group_id) <- opt_field bstr_C md s12 ;;
  Ok (remainder, MkProperties message_id user_id to subject reply_to correlation_id content_type content_encoding absolute_expiry_time creation_time group_id group_sequence reply_to_group_id).

(** content size, [encoded_size_properties_inner] (lines 4156-4178) and [encode_properties_inner] (lines 4179-4218);
    FIELD_COUNT: lines 3969-4011. *)
Definition properties_content_size (v : properties_t) : Z :=
  0
  + e_size (c_E (option_C message_id_C)) (properties_message_id v)
  + e_size (c_E (option_C bin_C)) (properties_user_id v)
  + e_size (c_E (option_C bstr_C)) (properties_to v)
  + e_size (c_E (option_C bstr_C)) (properties_subject v)
  + e_size (c_E (option_C bstr_C)) (properties_reply_to v)
  + e_size (c_E (option_C message_id_C)) (properties_correlation_id v)
  + e_size (c_E (option_C symbol_C)) (properties_content_type v)
  + e_size (c_E (option_C symbol_C)) (properties_content_encoding v)
  + e_size (c_E (option_C datetime_C)) (properties_absolute_expiry_time v)
  + e_size (c_E (option_C datetime_C)) (properties_creation_time v)
  + e_size (c_E (option_C bstr_C)) (properties_group_id v)
  + e_size (c_E (option_C u32_C)) (properties_group_sequence v)
  + e_size (c_E (option_C bstr_C)) (properties_reply_to_group_id v).
Definition properties_size (v : properties_t) : Z := composite_size (properties_content_size v).
Definition properties_enc (v : properties_t) : list wop :=
  composite_header 115 13 (properties_content_size v)
  ++ e_enc (c_E (option_C message_id_C)) (properties_message_id v)
  ++ e_enc (c_E (option_C bin_C)) (properties_user_id v)
  ++ e_enc (c_E (option_C bstr_C)) (properties_to v)
  ++ e_enc (c_E (option_C bstr_C)) (properties_subject v)
  ++ e_enc (c_E (option_C bstr_C)) (properties_reply_to v)
  ++ e_enc (c_E (option_C message_id_C)) (properties_correlation_id v)
  ++ e_enc (c_E (option_C symbol_C)) (properties_content_type v)
  ++ e_enc (c_E (option_C symbol_C)) (properties_content_encoding v)
  ++ e_enc (c_E (option_C datetime_C)) (properties_absolute_expiry_time v)
  ++ e_enc (c_E (option_C datetime_C)) (properties_creation_time v)
  ++ e_enc (c_E (option_C bstr_C)) (properties_group_id v)
  ++ e_enc (c_E (option_C u32_C)) (properties_group_sequence v)
  ++ e_enc (c_E (option_C bstr_C)) (properties_reply_to_group_id v).

(** [DecodeFormatted for Properties]: lines 4219-4233; [Encode for Properties]: lines 4234-4241. *)
Definition properties_dec : dec properties_t := composite_dec 115 "amqp:properties:list" decode_properties_inner.
Definition properties_C : codec properties_t := MkCodec (MkEnc properties_size properties_enc) properties_dec.

(** [DeliveryAnnotations]: definitions.rs lines 976-989. *)
Definition decode_delivery_annotations_inner (md : mode) (inp : bytes) : res (bytes * (list (symbol * variant))) :=
  decode (c_D fields_C) md inp.
Definition delivery_annotations_size (dr : list (symbol * variant)) : Z := 3 + e_size (c_E fields_C) dr.
Definition delivery_annotations_enc (dr : list (symbol * variant)) : list wop := descriptor_enc (DUlong 113) ++ e_enc (c_E fields_C) dr.

(** [MessageAnnotations]: definitions.rs lines 990-1003. *)
Definition decode_message_annotations_inner (md : mode) (inp : bytes) : res (bytes * (list (symbol * variant))) :=
  decode (c_D fields_C) md inp.
Definition message_annotations_size (dr : list (symbol * variant)) : Z := 3 + e_size (c_E fields_C) dr.
Definition message_annotations_enc (dr : list (symbol * variant)) : list wop := descriptor_enc (DUlong 114) ++ e_enc (c_E fields_C) dr.

(** [ApplicationProperties]: definitions.rs lines 1004-1017. *)
Definition decode_application_properties_inner (md : mode) (inp : bytes) : res (bytes * (list (str * variant))) :=
  decode (c_D string_variant_map_C) md inp.
Definition application_properties_size (dr : list (str * variant)) : Z := 3 + e_size (c_E string_variant_map_C) dr.
Definition application_properties_enc (dr : list (str * variant)) : list wop := descriptor_enc (DUlong 116) ++ e_enc (c_E string_variant_map_C) dr.

(** [Data]: definitions.rs lines 1018-1029. *)
Definition decode_data_inner (md : mode) (inp : bytes) : res (bytes * bytes) :=
  decode (c_D bin_C) md inp.
Definition data_size (dr : bytes) : Z := 3 + e_size (c_E bin_C) dr.
Definition data_enc (dr : bytes) : list wop := descriptor_enc (DUlong 117) ++ e_enc (c_E bin_C) dr.

(** [AmqpSequence]: definitions.rs lines 1030-1041. *)
Definition decode_amqp_sequence_inner (md : mode) (inp : bytes) : res (bytes * (list variant)) :=
  decode (c_D list_C) md inp.
Definition amqp_sequence_size (dr : list variant) : Z := 3 + e_size (c_E list_C) dr.
Definition amqp_sequence_enc (dr : list variant) : list wop := descriptor_enc (DUlong 118) ++ e_enc (c_E list_C) dr.

(** [AmqpValue]: definitions.rs lines 1042-1053. *)
Definition decode_amqp_value_inner (md : mode) (inp : bytes) : res (bytes * variant) :=
  decode (c_D variant_C) md inp.
Definition amqp_value_size (dr : variant) : Z := 3 + e_size (c_E variant_C) dr.
Definition amqp_value_enc (dr : variant) : list wop := descriptor_enc (DUlong 119) ++ e_enc (c_E variant_C) dr.

(** [Footer]: definitions.rs lines 1054-1065. *)
Definition decode_footer_inner (md : mode) (inp : bytes) : res (bytes * (list (symbol * variant))) :=
  decode (c_D fields_C) md inp.
Definition footer_size (dr : list (symbol * variant)) : Z := 3 + e_size (c_E fields_C) dr.
Definition footer_enc (dr : list (symbol * variant)) : list wop := descriptor_enc (DUlong 120) ++ e_enc (c_E fields_C) dr.

(** ** [Section]: definitions.rs lines 323-333 *)
Inductive section :=
| SEC_Header (v : header_t)
| SEC_DeliveryAnnotations (v : list (symbol * variant))
| SEC_MessageAnnotations (v : list (symbol * variant))
| SEC_ApplicationProperties (v : list (str * variant))
| SEC_Data (v : bytes)
| SEC_AmqpSequence (v : list variant)
| SEC_AmqpValue (v : variant)
| SEC_Footer (v : list (symbol * variant))
| SEC_Properties (v : properties_t).

(** [DecodeFormatted for Section]: lines 334-394. The descriptor selects the inner decoder. *)
Definition section_select (md : mode) (d : descriptor) (inp : bytes) : res (bytes * section) :=
  match d with
  | DUlong c =>
    if c =? 112 then map_res SEC_Header (decode_header_inner md inp)
    else if c =? 113 then map_res SEC_DeliveryAnnotations (decode_delivery_annotations_inner md inp)
    else if c =? 114 then map_res SEC_MessageAnnotations (decode_message_annotations_inner md inp)
    else if c =? 116 then map_res SEC_ApplicationProperties (decode_application_properties_inner md inp)
    else if c =? 117 then map_res SEC_Data (decode_data_inner md inp)
    else if c =? 118 then map_res SEC_AmqpSequence (decode_amqp_sequence_inner md inp)
    else if c =? 119 then map_res SEC_AmqpValue (decode_amqp_value_inner md inp)
    else if c =? 120 then map_res SEC_Footer (decode_footer_inner md inp)
    else if c =? 115 then map_res SEC_Properties (decode_properties_inner md inp)
    else Err (EInvalidDescriptor d)
  | DSymbol a =>
    if sym_is a "amqp:header:list" then map_res SEC_Header (decode_header_inner md inp)
    else if sym_is a "amqp:delivery-annotations:map" then map_res SEC_DeliveryAnnotations (decode_delivery_annotations_inner md inp)
    else if sym_is a "amqp:message-annotations:map" then map_res SEC_MessageAnnotations (decode_message_annotations_inner md inp)
    else if sym_is a "amqp:application-properties:map" then map_res SEC_ApplicationProperties (decode_application_properties_inner md inp)
    else if sym_is a "amqp:data:binary" then map_res SEC_Data (decode_data_inner md inp)
    else if sym_is a "amqp:amqp-sequence:list" then map_res SEC_AmqpSequence (decode_amqp_sequence_inner md inp)
    else if sym_is a "amqp:amqp-value:*" then map_res SEC_AmqpValue (decode_amqp_value_inner md inp)
    else if sym_is a "amqp:footer:map" then map_res SEC_Footer (decode_footer_inner md inp)
    else if sym_is a "amqp:properties:list" then map_res SEC_Properties (decode_properties_inner md inp)
    else Err (EInvalidDescriptor d)
  end.
Definition section_dec : dec section := fun md inp fmt =>
  _ <- validate_code fmt FC_DESCRIBED ;;
  '(inp1, d) <- decode descriptor_dec md inp ;;
  section_select md d inp1.

(** [Encode for Section]: lines 395-422. *)
Definition section_size (x : section) : Z :=
  match x with
  | SEC_Header v => header_size v
  | SEC_DeliveryAnnotations v => delivery_annotations_size v
  | SEC_MessageAnnotations v => message_annotations_size v
  | SEC_ApplicationProperties v => application_properties_size v
  | SEC_Data v => data_size v
  | SEC_AmqpSequence v => amqp_sequence_size v
  | SEC_AmqpValue v => amqp_value_size v
  | SEC_Footer v => footer_size v
  | SEC_Properties v => properties_size v
  end.
Definition section_enc (x : section) : list wop :=
  match x with
  | SEC_Header v => header_enc v
  | SEC_DeliveryAnnotations v => delivery_annotations_enc v
  | SEC_MessageAnnotations v => message_annotations_enc v
  | SEC_ApplicationProperties v => application_properties_enc v
  | SEC_Data v => data_enc v
  | SEC_AmqpSequence v => amqp_sequence_enc v
  | SEC_AmqpValue v => amqp_value_enc v
  | SEC_Footer v => footer_enc v
  | SEC_Properties v => properties_enc v
  end.
Definition section_C : codec section := MkCodec (MkEnc section_size section_enc) section_dec.
