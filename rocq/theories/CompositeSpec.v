(** Specification: the composite types, the unions of described types and the message sections, written from the AMQP 1.0
    standard (parts 1.4, 2.7, 2.8, 3.2, 3.4, 3.5, 5.3).

    A composite value is written as a descriptor and a list of its fields.  A field may be null, and trailing nulls may be
    left out; both mean the default of the field, or that there is no value if the field has no default. *)

From Coq Require Import String.
From Verif Require Import Definitions Utf8Spec Valid Wire TypeSpec.
Open Scope string_scope.
Open Scope list_scope.
Open Scope Z_scope.

(** ** Field tables *)
Inductive fields : Type -> Type :=
| FNil : fields unit
| FReq {T R} (name : string) (S : tspec T) (r : fields R) : fields (T * R)          (* mandatory *)
| FOpt {T R} (name : string) (S : tspec T) (r : fields R) : fields (option T * R)   (* optional, no default *)
| FDef {T R} (name : string) (S : tspec T) (dflt : T) (r : fields R) : fields (T * R). (* with a default *)

Fixpoint field_count {R} (F : fields R) : Z :=
  match F with
  | FNil => 0
  | FReq _ _ r => 1 + field_count r
  | FOpt _ _ r => 1 + field_count r
  | FDef _ _ _ r => 1 + field_count r
  end.

(** [wire_fields F a encs]: [encs] are encodings of the first fields of [a], in order; the others are left out. *)
Fixpoint wire_fields {R} (F : fields R) : R -> list bytes -> Prop :=
  match F in fields R return R -> list bytes -> Prop with
  | FNil => fun _ encs => encs = []
  | FReq _ t r => fun a encs =>
      match encs with
      | [] => False
      | e :: rest => s_wire t (fst a) e /\ wire_fields r (snd a) rest
      end
  | FOpt _ t r => fun a encs =>
      match encs with
      | [] => fst a = None /\ wire_fields r (snd a) []
      | e :: rest => match fst a with Some x => s_wire t x e | None => e = [0x40] end /\ wire_fields r (snd a) rest
      end
  | FDef _ t dflt r => fun a encs =>
      match encs with
      | [] => fst a = dflt /\ wire_fields r (snd a) []
      | e :: rest => (s_wire t (fst a) e \/ (fst a = dflt /\ e = [0x40])) /\ wire_fields r (snd a) rest
      end
  end.

(** [field_missing F encs name]: [encs] are encodings of the first fields, and the first mandatory field left out is
    [name]. *)
Fixpoint field_missing {R} (F : fields R) (encs : list bytes) (missing : string) : Prop :=
  match F with
  | FNil => False
  | FReq name t r =>
      match encs with
      | [] => missing = name
      | e :: rest => (exists x, s_wire t x e /\ s_decodable t x) /\ field_missing r rest missing
      end
  | FOpt _ t r | FDef _ t _ r =>
      match encs with
      | [] => field_missing r [] missing
      | e :: rest => (e = [0x40] \/ exists x, s_wire t x e /\ s_decodable t x) /\ field_missing r rest missing
      end
  end.

(** A property of the fields, and a function on them, from those of the types. *)
Section OnFields.
  Variable P : forall T, tspec T -> T -> Prop.
  Fixpoint each_field {R} (F : fields R) : R -> Prop :=
    match F in fields R return R -> Prop with
    | FNil => fun _ => True
    | FReq _ t r => fun a => P _ t (fst a) /\ each_field r (snd a)
    | FOpt _ t r => fun a => opt_prop (P _ t) (fst a) /\ each_field r (snd a)
    | FDef _ t _ r => fun a => P _ t (fst a) /\ each_field r (snd a)
    end.
End OnFields.
Fixpoint canon_fields {R} (F : fields R) : R -> R :=
  match F in fields R return R -> R with
  | FNil => fun a => a
  | FReq _ t r => fun a => (s_canon t (fst a), canon_fields r (snd a))
  | FOpt _ t r => fun a => (option_map (s_canon t) (fst a), canon_fields r (snd a))
  | FDef _ t _ r => fun a => (s_canon t (fst a), canon_fields r (snd a))
  end.

(** ** Lists of [n] elements *)
Inductive wire_list (n : Z) (content : bytes) : bytes -> Prop :=
| WLI_0 : n = 0 -> content = [] -> wire_list n content [0x45]
| WLI_8 : 0 <= n < 2 ^ 8 -> zlen content + 1 < 2 ^ 8 -> wire_list n content (0xc0 :: zlen content + 1 :: n :: content)
| WLI_32 : 0 <= n < 2 ^ 32 -> zlen content + 4 < 2 ^ 32 ->
    wire_list n content (0xd0 :: be4 (zlen content + 4) ++ be4 n ++ content).

(** ** Described types: a descriptor, numeric or symbolic, and a body *)
Record dspec (T : Type) : Type := MkD {
  d_code : Z;
  d_name : string;
  d_E : enc T;                                     (* the code described: encoder, ... *)
  d_inner : mode -> bytes -> res (bytes * T);      (* ... and decoder of what follows the descriptor *)
  d_valid : T -> Prop;
  d_body : T -> bytes -> Prop;                     (* the encodings of what follows the descriptor *)
  d_canon : T -> T;
  d_encodable : T -> Prop;
  d_decodable : T -> Prop
}.
Arguments MkD {T}. Arguments d_code {T}. Arguments d_name {T}. Arguments d_E {T}. Arguments d_inner {T}. Arguments d_valid {T}.
Arguments d_body {T}. Arguments d_canon {T}. Arguments d_encodable {T}. Arguments d_decodable {T}.

Definition wire_label (code : Z) (name : string) (bs : bytes) : Prop := wire_ulong code bs \/ wire_symbol (s2b name) bs.
Definition wire_described {T} (D : dspec T) (v : T) (bs : bytes) : Prop :=
  exists label body, wire_label (d_code D) (d_name D) label /\ d_body D v body /\ bs = 0x00 :: label ++ body.

Definition described_S {T} (C : codec T) (D : dspec T) : tspec T :=
  MkSpec C (d_valid D) [0x00] (wire_described D) (d_canon D) (d_encodable D) (d_decodable D).

(** ** Composite types: a table of fields for a record *)
Record composite : Type := MkComposite {
  k_T : Type;                     (* the record *)
  k_R : Type;                     (* the tuple of its fields *)
  k_code : Z;
  k_name : string;
  k_fields : fields k_R;
  k_to : k_T -> k_R;
  k_of : k_R -> k_T;
  k_codec : codec k_T;
  k_inner : mode -> bytes -> res (bytes * k_T)
}.
Definition composite_body (K : composite) (v : k_T K) (bs : bytes) : Prop :=
  exists encs, wire_fields (k_fields K) (k_to K v) encs /\ wire_list (zlen encs) (concat encs) bs.
Definition composite_D (K : composite) : dspec (k_T K) :=
  MkD (k_code K) (k_name K) (c_E (k_codec K)) (k_inner K)
    (fun v => each_field (@s_valid) (k_fields K) (k_to K v))
    (composite_body K)
    (fun v => k_of K (canon_fields (k_fields K) (k_to K v)))
    (fun v => each_field (@s_encodable) (k_fields K) (k_to K v))
    (fun v => each_field (@s_decodable) (k_fields K) (k_to K v)).
Definition composite_S (K : composite) : tspec (k_T K) := described_S (k_codec K) (composite_D K).

(** ** Unions of described types *)
Record alternative (T : Type) : Type := MkAlt {
  a_X : Type;
  a_D : dspec a_X;
  a_inj : a_X -> T;
  a_prj : T -> option a_X
}.
Arguments MkAlt {T a_X}. Arguments a_X {T}. Arguments a_D {T}. Arguments a_inj {T}. Arguments a_prj {T}.

Section OnUnion.
  Context {T : Type} (P : forall X, dspec X -> X -> Prop).
  Fixpoint the_alternative (alts : list (alternative T)) (v : T) : Prop :=
    match alts with
    | [] => False
    | a :: r => match a_prj a v with Some x => P _ (a_D a) x | None => the_alternative r v end
    end.
End OnUnion.
Fixpoint canon_union {T} (alts : list (alternative T)) (v : T) : T :=
  match alts with
  | [] => v
  | a :: r => match a_prj a v with Some x => a_inj a (d_canon (a_D a) x) | None => canon_union r v end
  end.
Definition union_S {T} (C : codec T) (alts : list (alternative T)) : tspec T :=
  MkSpec C (the_alternative (@d_valid) alts) [0x00]
    (fun v bs => the_alternative (fun _ D x => wire_described D x bs) alts v)
    (canon_union alts) (the_alternative (@d_encodable) alts) (the_alternative (@d_decodable) alts).

(** ** The composite types of the standard *)
Local Notation "f $ x" := (f x) (at level 60, right associativity, only parsing).

Definition error_K : composite := MkComposite error_t _ 0x1d "amqp:error:list"
  (FReq "condition" error_condition_S $
   FOpt "description" bstr_S $
   FOpt "info" fields_S FNil)
  (fun v => (err_condition v, (err_description v, (err_info v, tt))))
  (fun '(a, (b, (c, _))) => MkError a b c)
  error_C decode_error_inner.
Definition error_S : tspec error_t := composite_S error_K.

Definition received_K : composite := MkComposite received_t _ 0x23 "amqp:received:list"
  (FReq "section_number" u32_S $
   FReq "section_offset" u64_S FNil)
  (fun v => (received_section_number v, (received_section_offset v, tt)))
  (fun '(a, (b, _)) => MkReceived a b)
  received_C decode_received_inner.
Definition received_S : tspec received_t := composite_S received_K.

Definition accepted_K : composite := MkComposite accepted_t _ 0x24 "amqp:accepted:list" FNil
  (fun _ => tt) (fun _ => MkAccepted) accepted_C decode_accepted_inner.
Definition accepted_S : tspec accepted_t := composite_S accepted_K.

Definition rejected_K : composite := MkComposite rejected_t _ 0x25 "amqp:rejected:list"
  (FOpt "error" error_S FNil)
  (fun v => (rejected_error v, tt))
  (fun '(a, _) => MkRejected a)
  rejected_C decode_rejected_inner.
Definition rejected_S : tspec rejected_t := composite_S rejected_K.

Definition released_K : composite := MkComposite released_t _ 0x26 "amqp:released:list" FNil
  (fun _ => tt) (fun _ => MkReleased) released_C decode_released_inner.
Definition released_S : tspec released_t := composite_S released_K.

Definition modified_K : composite := MkComposite modified_t _ 0x27 "amqp:modified:list"
  (FOpt "delivery_failed" bool_S $
   FOpt "undeliverable_here" bool_S $
   FOpt "message_annotations" fields_S FNil)
  (fun v => (modified_delivery_failed v, (modified_undeliverable_here v, (modified_message_annotations v, tt))))
  (fun '(a, (b, (c, _))) => MkModified a b c)
  modified_C decode_modified_inner.
Definition modified_S : tspec modified_t := composite_S modified_K.

Definition delivery_state_alts : list (alternative delivery_state) :=
  [MkAlt (composite_D received_K) DS_Received (fun v => match v with DS_Received x => Some x | _ => None end);
   MkAlt (composite_D accepted_K) DS_Accepted (fun v => match v with DS_Accepted x => Some x | _ => None end);
   MkAlt (composite_D rejected_K) DS_Rejected (fun v => match v with DS_Rejected x => Some x | _ => None end);
   MkAlt (composite_D released_K) DS_Released (fun v => match v with DS_Released x => Some x | _ => None end);
   MkAlt (composite_D modified_K) DS_Modified (fun v => match v with DS_Modified x => Some x | _ => None end)].
Definition delivery_state_S : tspec delivery_state := union_S delivery_state_C delivery_state_alts.

Definition outcome_alts : list (alternative outcome) :=
  [MkAlt (composite_D accepted_K) OC_Accepted (fun v => match v with OC_Accepted x => Some x | _ => None end);
   MkAlt (composite_D rejected_K) OC_Rejected (fun v => match v with OC_Rejected x => Some x | _ => None end);
   MkAlt (composite_D released_K) OC_Released (fun v => match v with OC_Released x => Some x | _ => None end);
   MkAlt (composite_D modified_K) OC_Modified (fun v => match v with OC_Modified x => Some x | _ => None end)].
Definition outcome_S : tspec outcome := union_S outcome_C outcome_alts.

Definition source_K : composite := MkComposite source_t _ 0x28 "amqp:source:list"
  (FOpt "address" bstr_S $
   FDef "durable" terminus_durability_S TerminusDurability_None $
   FDef "expiry_policy" terminus_expiry_policy_S TerminusExpiryPolicy_SessionEnd $
   FDef "timeout" u32_S 0 $
   FDef "dynamic" bool_S false $
   FOpt "dynamic_node_properties" fields_S $
   FOpt "distribution_mode" distribution_mode_S $
   FOpt "filter" filter_set_S $
   FOpt "default_outcome" outcome_S $
   FOpt "outcomes" symbols_S $
   FOpt "capabilities" symbols_S FNil)
  (fun v => (source_address v, (source_durable v, (source_expiry_policy v, (source_timeout v, (source_dynamic v,
     (source_dynamic_node_properties v, (source_distribution_mode v, (source_filter v, (source_default_outcome v,
     (source_outcomes v, (source_capabilities v, tt))))))))))))
  (fun '(a, (b, (c, (d, (e, (f, (g, (h, (i, (j, (k, _))))))))))) => MkSource a b c d e f g h i j k)
  source_C decode_source_inner.
Definition source_S : tspec source_t := composite_S source_K.

Definition target_K : composite := MkComposite target_t _ 0x29 "amqp:target:list"
  (FOpt "address" bstr_S $
   FDef "durable" terminus_durability_S TerminusDurability_None $
   FDef "expiry_policy" terminus_expiry_policy_S TerminusExpiryPolicy_SessionEnd $
   FDef "timeout" u32_S 0 $
   FDef "dynamic" bool_S false $
   FOpt "dynamic_node_properties" fields_S $
   FOpt "capabilities" symbols_S FNil)
  (fun v => (target_address v, (target_durable v, (target_expiry_policy v, (target_timeout v, (target_dynamic v,
     (target_dynamic_node_properties v, (target_capabilities v, tt))))))))
  (fun '(a, (b, (c, (d, (e, (f, (g, _))))))) => MkTarget a b c d e f g)
  target_C decode_target_inner.
Definition target_S : tspec target_t := composite_S target_K.

Definition open_K : composite := MkComposite open_t _ 0x10 "amqp:open:list"
  (FReq "container_id" bstr_S $
   FOpt "hostname" bstr_S $
   FDef "max_frame_size" u32_S 4294967295 $
   FDef "channel_max" u16_S 65535 $
   FOpt "idle_time_out" u32_S $
   FOpt "outgoing_locales" symbols_S $
   FOpt "incoming_locales" symbols_S $
   FOpt "offered_capabilities" symbols_S $
   FOpt "desired_capabilities" symbols_S $
   FOpt "properties" fields_S FNil)
  (fun v => (open_container_id v, (open_hostname v, (open_max_frame_size v, (open_channel_max v, (open_idle_time_out v,
     (open_outgoing_locales v, (open_incoming_locales v, (open_offered_capabilities v, (open_desired_capabilities v,
     (open_properties v, tt)))))))))))
  (fun '(a, (b, (c, (d, (e, (f, (g, (h, (i, (j, _)))))))))) => MkOpen a b c d e f g h i j)
  open_C decode_open_inner.
Definition open_S : tspec open_t := composite_S open_K.

Definition begin_K : composite := MkComposite begin_t _ 0x11 "amqp:begin:list"
  (FOpt "remote_channel" u16_S $
   FReq "next_outgoing_id" u32_S $
   FReq "incoming_window" u32_S $
   FReq "outgoing_window" u32_S $
   FDef "handle_max" u32_S 4294967295 $
   FOpt "offered_capabilities" symbols_S $
   FOpt "desired_capabilities" symbols_S $
   FOpt "properties" fields_S FNil)
  (fun v => (begin_remote_channel v, (begin_next_outgoing_id v, (begin_incoming_window v, (begin_outgoing_window v,
     (begin_handle_max v, (begin_offered_capabilities v, (begin_desired_capabilities v, (begin_properties v, tt)))))))))
  (fun '(a, (b, (c, (d, (e, (f, (g, (h, _)))))))) => MkBegin a b c d e f g h)
  begin_C decode_begin_inner.
Definition begin_S : tspec begin_t := composite_S begin_K.

Definition attach_K : composite := MkComposite attach_t _ 0x12 "amqp:attach:list"
  (FReq "name" bstr_S $
   FReq "handle" u32_S $
   FReq "role" role_S $
   FDef "snd_settle_mode" sender_settle_mode_S SenderSettleMode_Mixed $
   FDef "rcv_settle_mode" receiver_settle_mode_S ReceiverSettleMode_First $
   FOpt "source" source_S $
   FOpt "target" target_S $
   FOpt "unsettled" vmap_S $
   FDef "incomplete_unsettled" bool_S false $
   FOpt "initial_delivery_count" u32_S $
   FOpt "max_message_size" u64_S $
   FOpt "offered_capabilities" symbols_S $
   FOpt "desired_capabilities" symbols_S $
   FOpt "properties" fields_S FNil)
  (fun v => (attach_name v, (attach_handle v, (attach_role v, (attach_snd_settle_mode v, (attach_rcv_settle_mode v,
     (attach_source v, (attach_target v, (attach_unsettled v, (attach_incomplete_unsettled v,
     (attach_initial_delivery_count v, (attach_max_message_size v, (attach_offered_capabilities v,
     (attach_desired_capabilities v, (attach_properties v, tt)))))))))))))))
  (fun '(a, (b, (c, (d, (e, (f, (g, (h, (i, (j, (k, (l, (m, (n, _)))))))))))))) => MkAttach a b c d e f g h i j k l m n)
  attach_C decode_attach_inner.
Definition attach_S : tspec attach_t := composite_S attach_K.

Definition flow_K : composite := MkComposite flow_t _ 0x13 "amqp:flow:list"
  (FOpt "next_incoming_id" u32_S $
   FReq "incoming_window" u32_S $
   FReq "next_outgoing_id" u32_S $
   FReq "outgoing_window" u32_S $
   FOpt "handle" u32_S $
   FOpt "delivery_count" u32_S $
   FOpt "link_credit" u32_S $
   FOpt "available" u32_S $
   FDef "drain" bool_S false $
   FDef "echo" bool_S false $
   FOpt "properties" fields_S FNil)
  (fun v => (flow_next_incoming_id v, (flow_incoming_window v, (flow_next_outgoing_id v, (flow_outgoing_window v,
     (flow_handle v, (flow_delivery_count v, (flow_link_credit v, (flow_available v, (flow_drain v, (flow_echo v,
     (flow_properties v, tt))))))))))))
  (fun '(a, (b, (c, (d, (e, (f, (g, (h, (i, (j, (k, _))))))))))) => MkFlow a b c d e f g h i j k)
  flow_C decode_flow_inner.
Definition flow_S : tspec flow_t := composite_S flow_K.

Definition disposition_K : composite := MkComposite disposition_t _ 0x15 "amqp:disposition:list"
  (FReq "role" role_S $
   FReq "first" u32_S $
   FOpt "last" u32_S $
   FDef "settled" bool_S false $
   FOpt "state" delivery_state_S $
   FDef "batchable" bool_S false FNil)
  (fun v => (disposition_role v, (disposition_first v, (disposition_last v, (disposition_settled v, (disposition_state v,
     (disposition_batchable v, tt)))))))
  (fun '(a, (b, (c, (d, (e, (f, _)))))) => MkDisposition a b c d e f)
  disposition_C decode_disposition_inner.
Definition disposition_S : tspec disposition_t := composite_S disposition_K.

Definition detach_K : composite := MkComposite detach_t _ 0x16 "amqp:detach:list"
  (FReq "handle" u32_S $
   FDef "closed" bool_S false $
   FOpt "error" error_S FNil)
  (fun v => (detach_handle v, (detach_closed v, (detach_error v, tt))))
  (fun '(a, (b, (c, _))) => MkDetach a b c)
  detach_C decode_detach_inner.
Definition detach_S : tspec detach_t := composite_S detach_K.

Definition end_K : composite := MkComposite end_t _ 0x17 "amqp:end:list"
  (FOpt "error" error_S FNil)
  (fun v => (end_error v, tt)) (fun '(a, _) => MkEnd a) end_C decode_end_inner.
Definition end_S : tspec end_t := composite_S end_K.

Definition close_K : composite := MkComposite close_t _ 0x18 "amqp:close:list"
  (FOpt "error" error_S FNil)
  (fun v => (close_error v, tt)) (fun '(a, _) => MkClose a) close_C decode_close_inner.
Definition close_S : tspec close_t := composite_S close_K.

Definition sasl_mechanisms_K : composite := MkComposite sasl_mechanisms_t _ 0x40 "amqp:sasl-mechanisms:list"
  (FReq "sasl_server_mechanisms" symbols_S FNil)
  (fun v => (sasl_mechanisms_sasl_server_mechanisms v, tt)) (fun '(a, _) => MkSaslMechanisms a)
  sasl_mechanisms_C decode_sasl_mechanisms_inner.
Definition sasl_mechanisms_S : tspec sasl_mechanisms_t := composite_S sasl_mechanisms_K.

Definition sasl_init_K : composite := MkComposite sasl_init_t _ 0x41 "amqp:sasl-init:list"
  (FReq "mechanism" symbol_S $
   FOpt "initial_response" bin_S $
   FOpt "hostname" bstr_S FNil)
  (fun v => (sasl_init_mechanism v, (sasl_init_initial_response v, (sasl_init_hostname v, tt))))
  (fun '(a, (b, (c, _))) => MkSaslInit a b c)
  sasl_init_C decode_sasl_init_inner.
Definition sasl_init_S : tspec sasl_init_t := composite_S sasl_init_K.

Definition sasl_challenge_K : composite := MkComposite sasl_challenge_t _ 0x42 "amqp:sasl-challenge:list"
  (FReq "challenge" bin_S FNil)
  (fun v => (sasl_challenge_challenge v, tt)) (fun '(a, _) => MkSaslChallenge a)
  sasl_challenge_C decode_sasl_challenge_inner.
Definition sasl_challenge_S : tspec sasl_challenge_t := composite_S sasl_challenge_K.

Definition sasl_response_K : composite := MkComposite sasl_response_t _ 0x43 "amqp:sasl-response:list"
  (FReq "response" bin_S FNil)
  (fun v => (sasl_response_response v, tt)) (fun '(a, _) => MkSaslResponse a)
  sasl_response_C decode_sasl_response_inner.
Definition sasl_response_S : tspec sasl_response_t := composite_S sasl_response_K.

Definition sasl_outcome_K : composite := MkComposite sasl_outcome_t _ 0x44 "amqp:sasl-outcome:list"
  (FReq "code" sasl_code_S $
   FOpt "additional_data" bin_S FNil)
  (fun v => (sasl_outcome_code v, (sasl_outcome_additional_data v, tt)))
  (fun '(a, (b, _)) => MkSaslOutcome a b)
  sasl_outcome_C decode_sasl_outcome_inner.
Definition sasl_outcome_S : tspec sasl_outcome_t := composite_S sasl_outcome_K.

Definition sasl_frame_body_alts : list (alternative sasl_frame_body) :=
  [MkAlt (composite_D sasl_mechanisms_K) SB_SaslMechanisms (fun v => match v with SB_SaslMechanisms x => Some x | _ => None end);
   MkAlt (composite_D sasl_init_K) SB_SaslInit (fun v => match v with SB_SaslInit x => Some x | _ => None end);
   MkAlt (composite_D sasl_challenge_K) SB_SaslChallenge (fun v => match v with SB_SaslChallenge x => Some x | _ => None end);
   MkAlt (composite_D sasl_response_K) SB_SaslResponse (fun v => match v with SB_SaslResponse x => Some x | _ => None end);
   MkAlt (composite_D sasl_outcome_K) SB_SaslOutcome (fun v => match v with SB_SaslOutcome x => Some x | _ => None end)].
Definition sasl_frame_body_S : tspec sasl_frame_body := union_S sasl_frame_body_C sasl_frame_body_alts.

Definition header_K : composite := MkComposite header_t _ 0x70 "amqp:header:list"
  (FDef "durable" bool_S false $
   FDef "priority" u8_S 4 $
   FOpt "ttl" u32_S $
   FDef "first_acquirer" bool_S false $
   FDef "delivery_count" u32_S 0 FNil)
  (fun v => (header_durable v, (header_priority v, (header_ttl v, (header_first_acquirer v, (header_delivery_count v, tt))))))
  (fun '(a, (b, (c, (d, (e, _))))) => MkHeader a b c d e)
  header_C decode_header_inner.
Definition header_S : tspec header_t := composite_S header_K.

Definition properties_K : composite := MkComposite properties_t _ 0x73 "amqp:properties:list"
  (FOpt "message_id" message_id_S $
   FOpt "user_id" bin_S $
   FOpt "to" bstr_S $
   FOpt "subject" bstr_S $
   FOpt "reply_to" bstr_S $
   FOpt "correlation_id" message_id_S $
   FOpt "content_type" symbol_S $
   FOpt "content_encoding" symbol_S $
   FOpt "absolute_expiry_time" datetime_S $
   FOpt "creation_time" datetime_S $
   FOpt "group_id" bstr_S $
   FOpt "group_sequence" u32_S $
   FOpt "reply_to_group_id" bstr_S FNil)
  (fun v => (properties_message_id v, (properties_user_id v, (properties_to v, (properties_subject v,
     (properties_reply_to v, (properties_correlation_id v, (properties_content_type v, (properties_content_encoding v,
     (properties_absolute_expiry_time v, (properties_creation_time v, (properties_group_id v,
     (properties_group_sequence v, (properties_reply_to_group_id v, tt))))))))))))))
  (fun '(a, (b, (c, (d, (e, (f, (g, (h, (i, (j, (k, (l, (m, _))))))))))))) => MkProperties a b c d e f g h i j k l m)
  properties_C decode_properties_inner.
Definition properties_S : tspec properties_t := composite_S properties_K.

(** Every composite type of the crate but [Transfer], whose encoding is followed by a payload. *)
Definition all_composites : list composite :=
  [error_K; received_K; accepted_K; rejected_K; released_K; modified_K; source_K; target_K; open_K; begin_K; attach_K;
   flow_K; disposition_K; detach_K; end_K; close_K; sasl_mechanisms_K; sasl_init_K; sasl_challenge_K; sasl_response_K;
   sasl_outcome_K; header_K; properties_K].

(** ** Message sections (part 3.2)

    The sections that are not composite: a descriptor and one value. *)
Definition section_D {T} (code : Z) (name : string) (S : tspec T) (size : T -> Z) (enc : T -> list wop)
    (inner : mode -> bytes -> res (bytes * T)) : dspec T :=
  MkD code name (MkEnc size enc) inner (s_valid S) (s_wire S) (s_canon S) (s_encodable S) (s_decodable S).
(** A list of values.  The encoder does not handle any: it writes lists with the codes of arrays. *)
Inductive wire_values : list variant -> bytes -> Prop :=
| WVS l content bs : wire_seq l content -> wire_list (zlen l) content bs -> wire_values l bs.
Definition list_S : tspec (list variant) := MkSpec list_C (Forall variant_ok) [0x45; 0xc0; 0xd0] wire_values (map canon)
  (fun _ => False) (Forall decodable).

Definition section_alts : list (alternative section) :=
  [MkAlt (composite_D header_K) SEC_Header (fun v => match v with SEC_Header x => Some x | _ => None end);
   MkAlt (section_D 0x71 "amqp:delivery-annotations:map" fields_S delivery_annotations_size delivery_annotations_enc
     decode_delivery_annotations_inner) SEC_DeliveryAnnotations (fun v => match v with SEC_DeliveryAnnotations x => Some x | _ => None end);
   MkAlt (section_D 0x72 "amqp:message-annotations:map" fields_S message_annotations_size message_annotations_enc
     decode_message_annotations_inner) SEC_MessageAnnotations (fun v => match v with SEC_MessageAnnotations x => Some x | _ => None end);
   MkAlt (section_D 0x74 "amqp:application-properties:map" string_variant_map_S application_properties_size
     application_properties_enc decode_application_properties_inner) SEC_ApplicationProperties
     (fun v => match v with SEC_ApplicationProperties x => Some x | _ => None end);
   MkAlt (section_D 0x75 "amqp:data:binary" bin_S data_size data_enc decode_data_inner)
     SEC_Data (fun v => match v with SEC_Data x => Some x | _ => None end);
   MkAlt (section_D 0x76 "amqp:amqp-sequence:list" list_S amqp_sequence_size amqp_sequence_enc decode_amqp_sequence_inner)
     SEC_AmqpSequence (fun v => match v with SEC_AmqpSequence x => Some x | _ => None end);
   MkAlt (section_D 0x77 "amqp:amqp-value:*" variant_S amqp_value_size amqp_value_enc decode_amqp_value_inner)
     SEC_AmqpValue (fun v => match v with SEC_AmqpValue x => Some x | _ => None end);
   MkAlt (section_D 0x78 "amqp:footer:map" fields_S footer_size footer_enc decode_footer_inner)
     SEC_Footer (fun v => match v with SEC_Footer x => Some x | _ => None end);
   MkAlt (composite_D properties_K) SEC_Properties (fun v => match v with SEC_Properties x => Some x | _ => None end)].
Definition section_S : tspec section := union_S section_C section_alts.
