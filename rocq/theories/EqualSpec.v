(** Specification: when two protocol values, frames or messages are the same, and on which of them nothing is lost when they are sent.

    For each type: the comparison the code has ([q_eqb]), sameness said without it, and the values on which nothing is lost.
    Sameness of a structure is read off the field tables of CompositeSpec and FrameSpec, that of a union off its alternatives. *)

From Coq Require Import String.
From Verif Require Import Equal Io Utf8Spec Valid Wire TypeSpec CompositeSpec AllTypes CodecSpec EqualitySpec MessageSpec FrameSpec.
Open Scope list_scope.
Open Scope Z_scope.

Record equality (T : Type) : Type := MkEq {
  q_eqb : T -> T -> bool;        (* the code described *)
  q_same : T -> T -> Prop;
  q_lossless : T -> Prop
}.
Arguments MkEq {T}. Arguments q_eqb {T}. Arguments q_same {T}. Arguments q_lossless {T}.

(** ** Parts *)
Definition plain_Q {T} (eqb : T -> T -> bool) : equality T := MkEq eqb eq always.
(** Texts are the same if their bytes are, however they are stored. *)
Definition text_Q : equality str := MkEq str_eqb (fun s t => str_bytes s = str_bytes t) always.
(** Instants are sent in milliseconds, and without leap seconds. *)
Definition datetime_Q : equality datetime :=
  MkEq datetime_eqb eq (fun t => dt_nanos t mod 1000000 = 0 /\ dt_nanos t < 1000000000).
Definition variant_Q : equality variant := MkEq variant_eqb same_value lossless.
(** Open enumerations: a custom symbol that is one of the predefined ones comes back as the predefined one. *)
Definition open_enum_Q {T} (eqb : T -> T -> bool) (table : list (T * string)) (get_custom : T -> option symbol) : equality T :=
  MkEq eqb
    (fun a b => match get_custom a, get_custom b with Some s, Some t => str_bytes s = str_bytes t | None, None => a = b | _, _ => False end)
    (fun a => opt_prop (fun s => forall y t, In (y, t) table -> str_bytes s <> s2b t) (get_custom a)).
Definition option_Q {T} (Q : equality T) : equality (option T) :=
  MkEq (opt_eqb (q_eqb Q)) (opt_rel (q_same Q)) (opt_prop (q_lossless Q)).
Definition vec_Q {T} (Q : equality T) : equality (list T) :=
  MkEq (vec_eqb (q_eqb Q)) (Forall2 (q_same Q)) (Forall (q_lossless Q)).
(** Hash maps: as many entries, and each entry of one is in the other; in any order. *)
Definition same_entries {K V} (sk : K -> K -> Prop) (sv : V -> V -> Prop) (l m : list (K * V)) : Prop :=
  length l = length m /\ forall k v, In (k, v) l -> exists k' v', In (k', v') m /\ sk k k' /\ sv v v'.
Definition map_Q {K V} (QK : equality K) (QV : equality V) : equality (list (K * V)) :=
  MkEq (map_eqb (q_eqb QK) (q_eqb QV)) (same_entries (q_same QK) (q_same QV)) (Forall (both (q_lossless QK) (q_lossless QV))).
Definition fields_Q := map_Q text_Q variant_Q.
Definition filter_set_Q := map_Q text_Q (option_Q (plain_Q bytes_eqb)).
Definition vmap_Q := map_Q variant_Q variant_Q.
Definition symbols_Q := vec_Q text_Q.
(** ** Structures: one equality for each field of the table *)
Fixpoint columns {R} (F : fields R) : Type :=
  match F with
  | FNil => unit
  | @FReq T _ _ _ r => (equality T * columns r)%type
  | @FOpt T _ _ _ r => (equality T * columns r)%type
  | @FDef T _ _ _ _ r => (equality T * columns r)%type
  end.
Fixpoint columns_same {R} (F : fields R) : columns F -> R -> R -> Prop :=
  match F in fields R return columns F -> R -> R -> Prop with
  | FNil => fun _ _ _ => True
  | FReq _ _ r => fun c a b => q_same (fst c) (fst a) (fst b) /\ columns_same r (snd c) (snd a) (snd b)
  | FOpt _ _ r => fun c a b => opt_rel (q_same (fst c)) (fst a) (fst b) /\ columns_same r (snd c) (snd a) (snd b)
  | FDef _ _ _ r => fun c a b => q_same (fst c) (fst a) (fst b) /\ columns_same r (snd c) (snd a) (snd b)
  end.
Fixpoint columns_lossless {R} (F : fields R) : columns F -> R -> Prop :=
  match F in fields R return columns F -> R -> Prop with
  | FNil => fun _ _ => True
  | FReq _ _ r => fun c a => q_lossless (fst c) (fst a) /\ columns_lossless r (snd c) (snd a)
  | FOpt _ _ r => fun c a => opt_prop (q_lossless (fst c)) (fst a) /\ columns_lossless r (snd c) (snd a)
  | FDef _ _ _ r => fun c a => q_lossless (fst c) (fst a) /\ columns_lossless r (snd c) (snd a)
  end.
Definition struct_Q (K : composite) (eqb : k_T K -> k_T K -> bool) (c : columns (k_fields K)) : equality (k_T K) :=
  MkEq eqb (fun a b => columns_same (k_fields K) c (k_to K a) (k_to K b)) (fun a => columns_lossless (k_fields K) c (k_to K a)).

(** ** Unions: one equality for each alternative *)
Fixpoint choices {T} (alts : list (alternative T)) : Type :=
  match alts with
  | [] => unit
  | a :: r => (equality (a_X a) * choices r)%type
  end.
Fixpoint choices_same {T} (alts : list (alternative T)) : choices alts -> T -> T -> Prop :=
  match alts return choices alts -> T -> T -> Prop with
  | [] => fun _ _ _ => False
  | a :: r => fun c v w =>
      match a_prj a v, a_prj a w with
      | Some x, Some y => q_same (fst c) x y
      | None, None => choices_same r (snd c) v w
      | _, _ => False
      end
  end.
Fixpoint choices_lossless {T} (alts : list (alternative T)) : choices alts -> T -> Prop :=
  match alts return choices alts -> T -> Prop with
  | [] => fun _ _ => True
  | a :: r => fun c v => match a_prj a v with Some x => q_lossless (fst c) x | None => choices_lossless r (snd c) v end
  end.
Definition union_Q {T} (alts : list (alternative T)) (eqb : T -> T -> bool) (c : choices alts) : equality T :=
  MkEq eqb (choices_same alts c) (choices_lossless alts c).

(** ** The types *)
Definition role_Q := plain_Q role_eqb.
Definition sender_settle_mode_Q := plain_Q sender_settle_mode_eqb.
Definition receiver_settle_mode_Q := plain_Q receiver_settle_mode_eqb.
Definition sasl_code_Q := plain_Q sasl_code_eqb.
Definition terminus_durability_Q := plain_Q terminus_durability_eqb.
Definition terminus_expiry_policy_Q := plain_Q terminus_expiry_policy_eqb.
Definition amqp_error_Q := plain_Q amqp_error_eqb.
Definition connection_error_Q := plain_Q connection_error_eqb.
Definition session_error_Q := plain_Q session_error_eqb.
Definition link_error_Q := plain_Q link_error_eqb.
Definition message_id_Q := plain_Q message_id_eqb.
Definition error_condition_Q := open_enum_Q error_condition_eqb condition_table condition_custom.
Definition distribution_mode_Q := open_enum_Q distribution_mode_eqb distribution_table distribution_custom.
Definition error_Q : equality error_t := struct_Q error_K error_eqb
  (error_condition_Q, (plain_Q bytes_eqb, (fields_Q, tt))).
Definition received_Q : equality received_t := struct_Q received_K received_eqb
  (plain_Q Z.eqb, (plain_Q Z.eqb, tt)).
Definition accepted_Q : equality accepted_t := struct_Q accepted_K accepted_eqb tt.
Definition rejected_Q : equality rejected_t := struct_Q rejected_K rejected_eqb
  (error_Q, tt).
Definition released_Q : equality released_t := struct_Q released_K released_eqb tt.
Definition modified_Q : equality modified_t := struct_Q modified_K modified_eqb
  (plain_Q Bool.eqb, (plain_Q Bool.eqb, (fields_Q, tt))).
Definition delivery_state_Q : equality delivery_state := union_Q delivery_state_alts delivery_state_eqb
  (received_Q, (accepted_Q, (rejected_Q, (released_Q, (modified_Q, tt))))).
Definition outcome_Q : equality outcome := union_Q outcome_alts outcome_eqb
  (accepted_Q, (rejected_Q, (released_Q, (modified_Q, tt)))).
Definition source_Q : equality source_t := struct_Q source_K source_eqb
  (plain_Q bytes_eqb, (terminus_durability_Q, (terminus_expiry_policy_Q, (plain_Q Z.eqb, (plain_Q Bool.eqb, (fields_Q,
   (distribution_mode_Q, (filter_set_Q, (outcome_Q, (symbols_Q, (symbols_Q, tt))))))))))).
Definition target_Q : equality target_t := struct_Q target_K target_eqb
  (plain_Q bytes_eqb, (terminus_durability_Q, (terminus_expiry_policy_Q, (plain_Q Z.eqb, (plain_Q Bool.eqb, (fields_Q,
   (symbols_Q, tt))))))).
Definition open_Q : equality open_t := struct_Q open_K open_eqb
  (plain_Q bytes_eqb, (plain_Q bytes_eqb, (plain_Q Z.eqb, (plain_Q Z.eqb, (plain_Q Z.eqb, (symbols_Q, (symbols_Q,
   (symbols_Q, (symbols_Q, (fields_Q, tt)))))))))).
Definition begin_Q : equality begin_t := struct_Q begin_K begin_eqb
  (plain_Q Z.eqb, (plain_Q Z.eqb, (plain_Q Z.eqb, (plain_Q Z.eqb, (plain_Q Z.eqb, (symbols_Q, (symbols_Q,
   (fields_Q, tt)))))))).
Definition attach_Q : equality attach_t := struct_Q attach_K attach_eqb
  (plain_Q bytes_eqb, (plain_Q Z.eqb, (role_Q, (sender_settle_mode_Q, (receiver_settle_mode_Q, (source_Q, (target_Q,
   (vmap_Q, (plain_Q Bool.eqb, (plain_Q Z.eqb, (plain_Q Z.eqb, (symbols_Q, (symbols_Q, (fields_Q, tt)))))))))))))).
Definition flow_Q : equality flow_t := struct_Q flow_K flow_eqb
  (plain_Q Z.eqb, (plain_Q Z.eqb, (plain_Q Z.eqb, (plain_Q Z.eqb, (plain_Q Z.eqb, (plain_Q Z.eqb, (plain_Q Z.eqb,
   (plain_Q Z.eqb, (plain_Q Bool.eqb, (plain_Q Bool.eqb, (fields_Q, tt))))))))))).
Definition disposition_Q : equality disposition_t := struct_Q disposition_K disposition_eqb
  (role_Q, (plain_Q Z.eqb, (plain_Q Z.eqb, (plain_Q Bool.eqb, (delivery_state_Q, (plain_Q Bool.eqb, tt)))))).
Definition detach_Q : equality detach_t := struct_Q detach_K detach_eqb
  (plain_Q Z.eqb, (plain_Q Bool.eqb, (error_Q, tt))).
Definition end_Q : equality end_t := struct_Q end_K end_eqb
  (error_Q, tt).
Definition close_Q : equality close_t := struct_Q close_K close_eqb
  (error_Q, tt).
Definition sasl_mechanisms_Q : equality sasl_mechanisms_t := struct_Q sasl_mechanisms_K sasl_mechanisms_eqb
  (symbols_Q, tt).
Definition sasl_init_Q : equality sasl_init_t := struct_Q sasl_init_K sasl_init_eqb
  (text_Q, (plain_Q bytes_eqb, (plain_Q bytes_eqb, tt))).
Definition sasl_challenge_Q : equality sasl_challenge_t := struct_Q sasl_challenge_K sasl_challenge_eqb
  (plain_Q bytes_eqb, tt).
Definition sasl_response_Q : equality sasl_response_t := struct_Q sasl_response_K sasl_response_eqb
  (plain_Q bytes_eqb, tt).
Definition sasl_outcome_Q : equality sasl_outcome_t := struct_Q sasl_outcome_K sasl_outcome_eqb
  (sasl_code_Q, (plain_Q bytes_eqb, tt)).
Definition sasl_frame_body_Q : equality sasl_frame_body := union_Q sasl_frame_body_alts sasl_frame_body_eqb
  (sasl_mechanisms_Q, (sasl_init_Q, (sasl_challenge_Q, (sasl_response_Q, (sasl_outcome_Q, tt))))).
Definition header_Q : equality header_t := struct_Q header_K header_eqb
  (plain_Q Bool.eqb, (plain_Q Z.eqb, (plain_Q Z.eqb, (plain_Q Bool.eqb, (plain_Q Z.eqb, tt))))).
Definition properties_Q : equality properties_t := struct_Q properties_K properties_eqb
  (message_id_Q, (plain_Q bytes_eqb, (plain_Q bytes_eqb, (plain_Q bytes_eqb, (plain_Q bytes_eqb, (message_id_Q, (text_Q,
   (text_Q, (datetime_Q, (datetime_Q, (plain_Q bytes_eqb, (plain_Q Z.eqb, (plain_Q bytes_eqb, tt))))))))))))).
Definition section_Q : equality section := union_Q section_alts section_eqb
  (header_Q, (fields_Q, (fields_Q, (fields_Q, (plain_Q bytes_eqb, (vec_Q variant_Q, (variant_Q, (fields_Q,
   (properties_Q, tt))))))))).

(** Every type with the equality that belongs to it. *)
Inductive compared : forall {T}, tspec T -> equality T -> Prop :=
| cp_role : compared role_S role_Q
| cp_sender_settle_mode : compared sender_settle_mode_S sender_settle_mode_Q
| cp_receiver_settle_mode : compared receiver_settle_mode_S receiver_settle_mode_Q
| cp_sasl_code : compared sasl_code_S sasl_code_Q
| cp_terminus_durability : compared terminus_durability_S terminus_durability_Q
| cp_terminus_expiry_policy : compared terminus_expiry_policy_S terminus_expiry_policy_Q
| cp_amqp_error : compared amqp_error_S amqp_error_Q
| cp_connection_error : compared connection_error_S connection_error_Q
| cp_session_error : compared session_error_S session_error_Q
| cp_link_error : compared link_error_S link_error_Q
| cp_message_id : compared message_id_S message_id_Q
| cp_error_condition : compared error_condition_S error_condition_Q
| cp_distribution_mode : compared distribution_mode_S distribution_mode_Q
| cp_error : compared error_S error_Q
| cp_received : compared received_S received_Q
| cp_accepted : compared accepted_S accepted_Q
| cp_rejected : compared rejected_S rejected_Q
| cp_released : compared released_S released_Q
| cp_modified : compared modified_S modified_Q
| cp_source : compared source_S source_Q
| cp_target : compared target_S target_Q
| cp_open : compared open_S open_Q
| cp_begin : compared begin_S begin_Q
| cp_attach : compared attach_S attach_Q
| cp_flow : compared flow_S flow_Q
| cp_disposition : compared disposition_S disposition_Q
| cp_detach : compared detach_S detach_Q
| cp_end : compared end_S end_Q
| cp_close : compared close_S close_Q
| cp_sasl_mechanisms : compared sasl_mechanisms_S sasl_mechanisms_Q
| cp_sasl_init : compared sasl_init_S sasl_init_Q
| cp_sasl_challenge : compared sasl_challenge_S sasl_challenge_Q
| cp_sasl_response : compared sasl_response_S sasl_response_Q
| cp_sasl_outcome : compared sasl_outcome_S sasl_outcome_Q
| cp_header : compared header_S header_Q
| cp_properties : compared properties_S properties_Q
| cp_delivery_state : compared delivery_state_S delivery_state_Q
| cp_outcome : compared outcome_S outcome_Q
| cp_sasl_frame_body : compared sasl_frame_body_S sasl_frame_body_Q
| cp_section : compared section_S section_Q
| cp_variant : compared variant_S variant_Q
| cp_str : compared str_S text_Q
| cp_symbol : compared symbol_S text_Q
| cp_timestamp : compared datetime_S datetime_Q
| cp_fields : compared fields_S fields_Q
| cp_filter_set : compared filter_set_S filter_set_Q
| cp_map : compared vmap_S vmap_Q
| cp_string_variant_map : compared string_variant_map_S fields_Q
| cp_symbols : compared symbols_S symbols_Q
| cp_list : compared list_S (vec_Q variant_Q).

(** ** Messages

    [apps]: when application properties are the same.  The memo of the size is part of a message. *)
Section SameMessage.
  Context {TB : Type} (apps : list (str * variant) -> list (str * variant) -> Prop) (tb : TB -> TB -> Prop).
  Fixpoint same_nested (l m : list TB) : Prop :=
    match l, m with
    | [], [] => True
    | x :: l', y :: m' => tb x y /\ same_nested l' m'
    | _, _ => False
    end.
  Definition same_message_ (a b : message_ TB) : Prop :=
    m_message_format a = m_message_format b /\
    opt_rel (q_same header_Q) (m_header a) (m_header b) /\
    opt_rel (q_same fields_Q) (m_delivery_annotations a) (m_delivery_annotations b) /\
    opt_rel (q_same fields_Q) (m_message_annotations a) (m_message_annotations b) /\
    opt_rel (q_same properties_Q) (m_properties a) (m_properties b) /\
    opt_rel apps (m_application_properties a) (m_application_properties b) /\
    opt_rel (q_same fields_Q) (m_footer a) (m_footer b) /\
    mb_data (m_body a) = mb_data (m_body b) /\
    Forall2 (Forall2 same_value) (mb_sequence (m_body a)) (mb_sequence (m_body b)) /\
    opt_rel same_value (mb_value (m_body a)) (mb_value (m_body b)) /\
    same_nested (mb_messages (m_body a)) (mb_messages (m_body b)) /\
    m_size a = m_size b.
End SameMessage.
(** Application properties of an [InMessage] are a hash map; those of an [OutMessage] are entries in an order. *)
Definition same_in_properties : list (str * variant) -> list (str * variant) -> Prop := q_same fields_Q.
Definition same_out_properties : list (str * variant) -> list (str * variant) -> Prop :=
  Forall2 (fun a b => str_bytes (fst a) = str_bytes (fst b) /\ same_value (snd a) (snd b)).
Fixpoint same_body (a b : transfer_body) : Prop :=
  match a, b with
  | TBData x, TBData y => x = y
  | TBMessageIn m, TBMessageIn n => same_message_ same_in_properties same_body m n
  | TBMessageOut m, TBMessageOut n => same_message_ same_out_properties same_body m n
  | _, _ => False
  end.
Definition same_in_message : message -> message -> Prop := same_message_ same_in_properties same_body.
Definition same_out_message : message -> message -> Prop := same_message_ same_out_properties same_body.

(** The keys of a hash map are different, also in nested messages. *)
Fixpoint body_hashed (t : transfer_body) : Prop :=
  match t with
  | TBData _ => True
  | TBMessageIn m => opt_prop (distinct_keys str_eqb) (m_application_properties m) /\ all_prop body_hashed (mb_messages (m_body m))
  | TBMessageOut m => all_prop body_hashed (mb_messages (m_body m))
  end.
(** A value of [InMessage], of [OutMessage], of [TransferBody]. *)
Definition in_valid (m : message) : Prop := message_valid m /\ body_hashed (TBMessageIn m).
Definition out_valid (m : message) : Prop := message_valid m /\ body_hashed (TBMessageOut m).
Definition carried_valid (t : transfer_body) : Prop := body_valid t /\ body_hashed t.

(** Messages that come back as they were sent: nothing is lost on any section; there is a body, without sequences and nested
    messages; nothing that is not sent (the message format and the memo of the size) is set. *)
Definition message_kept (m : message) : Prop :=
  m_message_format m = None /\ m_size m = 0 /\
  opt_prop (q_lossless fields_Q) (m_delivery_annotations m) /\ opt_prop (q_lossless fields_Q) (m_message_annotations m) /\
  opt_prop (q_lossless properties_Q) (m_properties m) /\ opt_prop (q_lossless fields_Q) (m_application_properties m) /\
  opt_prop (q_lossless fields_Q) (m_footer m) /\ opt_prop lossless (mb_value (m_body m)) /\
  mb_sequence (m_body m) = [] /\ mb_messages (m_body m) = [] /\ (mb_data (m_body m) <> [] \/ mb_value (m_body m) <> None).

(** ** Frames *)
Definition transfer_columns : columns transfer_table :=
  (plain_Q Z.eqb, (plain_Q Z.eqb, (plain_Q bytes_eqb, (plain_Q Z.eqb, (plain_Q Bool.eqb, (plain_Q Bool.eqb,
   (receiver_settle_mode_Q, (delivery_state_Q, (plain_Q Bool.eqb, (plain_Q Bool.eqb, (plain_Q Bool.eqb, tt))))))))))).
(** A transfer keeps what it carries only as bytes, and as nothing if there are none. *)
Definition transfer_Q : equality transfer_t :=
  MkEq transfer_eqb
    (fun a b => columns_same transfer_table transfer_columns (transfer_to a) (transfer_to b) /\ opt_rel same_body (transfer_body_f a) (transfer_body_f b))
    (fun a => columns_lossless transfer_table transfer_columns (transfer_to a) /\
              opt_prop (fun t => exists b, t = TBData b /\ b <> []) (transfer_body_f a)).
Definition frame_choices : choices frame_alts :=
  (open_Q, (begin_Q, (attach_Q, (flow_Q, (transfer_Q, (disposition_Q, (detach_Q, (end_Q, (close_Q, tt))))))))).
Definition frame_Q : equality frame :=
  MkEq frame_eqb
    (fun a b => match a, b with FR_Empty, FR_Empty => True | _, _ => choices_same frame_alts frame_choices a b end)
    (choices_lossless frame_alts frame_choices).
(** A value of [Transfer], of [Frame]. *)
Definition frame_value (f : frame) : Prop :=
  frame_valid f /\ match f with FR_Transfer v => opt_prop body_hashed (transfer_body_f v) | _ => True end.
(** What a frame carries after its performative. *)
Definition frame_payload (f : frame) : bytes := match f with FR_Transfer v => transfer_payload v | _ => [] end.
