(** Model of /repo/src/message/{mod,body,inmessage,outmessage}.rs and [TransferBody] (/repo/src/protocol/mod.rs 213-251).

    [InMessage] (inmessage.rs lines 17-28) and [OutMessage] (outmessage.rs lines 13-24) have the same fields, the same
    [Encode] and the same [Decode] text; they differ in how application properties are stored ([HashMap] or vector).
    One type serves both: application properties are a list of entries, and the two [set_app_property] differ.
    The memo [size: Cell<usize>] is a field; [encoded_size] is split into its result and its effect on the memos. *)

From Coq Require Import String.
From Verif Require Export Definitions.
Open Scope list_scope.
Open Scope Z_scope.

(** [SECTION_PREFIX_LENGTH]: message/mod.rs line 9. *)
Definition SECTION_PREFIX_LENGTH := 3.

Definition annotations := list (symbol * variant).

(** [MessageBody]: body.rs lines 9-15, over the type of nested messages. *)
Record message_body_ (TB : Type) := MkBody {
  mb_data : list bytes;
  mb_sequence : list (list variant);
  mb_messages : list TB;
  mb_value : option variant
}.
Arguments MkBody {TB}. Arguments mb_data {TB}. Arguments mb_sequence {TB}. Arguments mb_messages {TB}.
Arguments mb_value {TB}.

(** [InMessage], [OutMessage]. *)
Record message_ (TB : Type) := MkMessage {
  m_message_format : option Z;
  m_header : option header_t;
  m_delivery_annotations : option annotations;
  m_message_annotations : option annotations;
  m_properties : option properties_t;
  m_application_properties : option (list (str * variant));
  m_footer : option annotations;
  m_body : message_body_ TB;
  m_size : Z
}.
Arguments MkMessage {TB}. Arguments m_message_format {TB}. Arguments m_header {TB}.
Arguments m_delivery_annotations {TB}. Arguments m_message_annotations {TB}. Arguments m_properties {TB}.
Arguments m_application_properties {TB}. Arguments m_footer {TB}. Arguments m_body {TB}. Arguments m_size {TB}.

(** [TransferBody]: protocol/mod.rs lines 213-218. *)
Inductive transfer_body :=
| TBData (b : bytes)
| TBMessageIn (m : message_ transfer_body)
| TBMessageOut (m : message_ transfer_body).

Definition message := message_ transfer_body.
Definition message_body := message_body_ transfer_body.

(** [if let Some(ref x) = o { size += f(x) }] *)
Definition opt_add {A} (f : A -> Z) (o : option A) : Z := match o with Some x => f x | None => 0 end.
(** [if let Some(ref x) = o { .. encode .. }] *)
Definition opt_ops {A} (f : A -> list wop) (o : option A) : list wop := match o with Some x => f x | None => [] end.

Section Sizes.
  Context {TB : Type} (tb_size : TB -> Z) (tb_enc : TB -> list wop).

  (** [MessageBody::encoded_size]: body.rs lines 37-57. *)
  Definition body_size_ (b : message_body_ TB) : Z :=
    let size := zsum (fun d => bin_size d + SECTION_PREFIX_LENGTH) (mb_data b) in
    let size := size + zsum (fun seq => list_size variant_size seq + SECTION_PREFIX_LENGTH) (mb_sequence b) in
    let size := size + zsum (fun m => let length := tb_size m in
                                      let size := length + (if 255 <? length then 5 else 2) in
                                      size + SECTION_PREFIX_LENGTH) (mb_messages b) in
    match mb_value b with
    | Some val => size + variant_size val + SECTION_PREFIX_LENGTH
    | None => size
    end.

  (** [MessageBody::encode]: body.rs lines 59-88. *)
  Definition body_enc_ (b : message_body_ TB) : list wop :=
    flat_map (fun d => descriptor_enc (DUlong 117) ++ bin_enc d) (mb_data b)
    ++ flat_map (fun seq => descriptor_enc (DUlong 118) ++ list_enc variant_size variant_enc seq) (mb_sequence b)
    ++ opt_ops (fun val => descriptor_enc (DUlong 119) ++ variant_enc val) (mb_value b)
    ++ flat_map (fun m => descriptor_enc (DUlong 117)
                          ++ (let length := tb_size m in
                              if 255 <? length then [put_u8 FC_BINARY32; put_u32_be length]
                              else [put_u8 FC_BINARY8; put_u8 length])
                          ++ tb_enc m) (mb_messages b).

  (** [encoded_size] when the memo is empty: inmessage.rs lines 208-235, outmessage.rs lines 201-228. *)
  Definition message_fresh_size_ (m : message_ TB) : Z :=
    let body_size := body_size_ (m_body m) in
    (if body_size =? 0 then SECTION_PREFIX_LENGTH + 2 else body_size)
    + opt_add (fun h => header_size h + SECTION_PREFIX_LENGTH) (m_header m)
    + opt_add (fun da => e_size (c_E fields_C) da + SECTION_PREFIX_LENGTH) (m_delivery_annotations m)
    + opt_add (fun ma => e_size (c_E fields_C) ma + SECTION_PREFIX_LENGTH) (m_message_annotations m)
    + opt_add properties_size (m_properties m)
    + opt_add (fun ap => e_size (c_E string_variant_map_C) ap + SECTION_PREFIX_LENGTH) (m_application_properties m)
    + opt_add (fun f => e_size (c_E fields_C) f + SECTION_PREFIX_LENGTH) (m_footer m).
  (** [encoded_size]: inmessage.rs lines 203-238, outmessage.rs lines 195-230. *)
  Definition message_size_ (m : message_ TB) : Z :=
    let size := m_size m in
    if negb (size =? 0) then size else message_fresh_size_ m.

  (** [encode]: inmessage.rs lines 240-275, outmessage.rs lines 232-267. *)
  Definition message_enc_ (m : message_ TB) : list wop :=
    opt_ops header_enc (m_header m)
    ++ opt_ops (fun da => descriptor_enc (DUlong 113) ++ e_enc (c_E fields_C) da) (m_delivery_annotations m)
    ++ opt_ops (fun ma => descriptor_enc (DUlong 114) ++ e_enc (c_E fields_C) ma) (m_message_annotations m)
    ++ opt_ops properties_enc (m_properties m)
    ++ opt_ops (fun ap => descriptor_enc (DUlong 116) ++ e_enc (c_E string_variant_map_C) ap)
               (m_application_properties m)
    ++ (if body_size_ (m_body m) =? 0
        then descriptor_enc (DUlong 117) ++ [put_u8 FC_BINARY8; put_u8 0]
        else body_enc_ (m_body m))
    ++ opt_ops (fun f => descriptor_enc (DUlong 120) ++ e_enc (c_E fields_C) f) (m_footer m).
End Sizes.

(** [Encode for TransferBody]: protocol/mod.rs lines 236-251 ([len] is lines 221-224). *)
Fixpoint transfer_body_size (t : transfer_body) : Z :=
  match t with
  | TBData data => zlen data
  | TBMessageIn m => message_size_ transfer_body_size m
  | TBMessageOut m => message_size_ transfer_body_size m
  end.
Fixpoint transfer_body_enc (t : transfer_body) : list wop :=
  match t with
  | TBData data => [Put data]
  | TBMessageIn m => message_enc_ transfer_body_size transfer_body_enc m
  | TBMessageOut m => message_enc_ transfer_body_size transfer_body_enc m
  end.

Definition body_size : message_body -> Z := body_size_ transfer_body_size.
Definition body_enc : message_body -> list wop := body_enc_ transfer_body_size transfer_body_enc.
Definition message_fresh_size : message -> Z := message_fresh_size_ transfer_body_size.
Definition message_size : message -> Z := message_size_ transfer_body_size.
Definition message_enc : message -> list wop := message_enc_ transfer_body_size transfer_body_enc.

(** [TransferBody::message_format]: protocol/mod.rs lines 226-233. *)
Definition transfer_body_message_format (t : transfer_body) : option Z :=
  match t with
  | TBData _ => None
  | TBMessageIn m => m_message_format m
  | TBMessageOut m => m_message_format m
  end.

(** ** Effect of [encoded_size] on the memos *)

Definition set_messages {TB} (b : message_body_ TB) (l : list TB) : message_body_ TB :=
  MkBody (mb_data b) (mb_sequence b) l (mb_value b).
Definition set_size_body {TB} (m : message_ TB) (b : message_body_ TB) (s : Z) : message_ TB :=
  MkMessage (m_message_format m) (m_header m) (m_delivery_annotations m) (m_message_annotations m) (m_properties m)
            (m_application_properties m) (m_footer m) b s.

(** State after [encoded_size()]: the memo of the message, and of the nested messages visited, is filled
    (inmessage.rs line 236, outmessage.rs line 228, through body.rs line 47). *)
Definition message_sized_ {TB} (tb_size : TB -> Z) (tb_sized : TB -> TB) (m : message_ TB) : message_ TB :=
  if negb (m_size m =? 0) then m
  else set_size_body m (set_messages (m_body m) (map tb_sized (mb_messages (m_body m))))
                     (message_fresh_size_ tb_size m).
Fixpoint transfer_body_sized (t : transfer_body) : transfer_body :=
  match t with
  | TBData data => TBData data
  | TBMessageIn m => TBMessageIn (message_sized_ transfer_body_size transfer_body_sized m)
  | TBMessageOut m => TBMessageOut (message_sized_ transfer_body_size transfer_body_sized m)
  end.
Definition message_sized : message -> message := message_sized_ transfer_body_size transfer_body_sized.

(** State after [encode()]: the memo of the message itself is not touched, but each nested message is asked for its size
    and then encoded (inmessage.rs line 261 and outmessage.rs line 253 through body.rs lines 47 and 76, then line 85).
    For the recursion to be structural the two effects are composed the other way round; that they commute is proved
    ([encoded_sized] in MessageFacts.v). *)
Definition message_encoded_ {TB} (tb_sized tb_encoded : TB -> TB) (m : message_ TB) : message_ TB :=
  set_size_body m (set_messages (m_body m) (map (fun t => tb_sized (tb_encoded t)) (mb_messages (m_body m)))) (m_size m).
Fixpoint transfer_body_encoded (t : transfer_body) : transfer_body :=
  match t with
  | TBData data => TBData data
  | TBMessageIn m => TBMessageIn (message_encoded_ transfer_body_sized transfer_body_encoded m)
  | TBMessageOut m => TBMessageOut (message_encoded_ transfer_body_sized transfer_body_encoded m)
  end.
Definition message_encoded : message -> message := message_encoded_ transfer_body_sized transfer_body_encoded.

(** ** Constructors and setters *)

(** [Default]. *)
Definition body_default : message_body := MkBody [] [] [] None.
Definition message_default : message := MkMessage None None None None None None None body_default 0.

(** [Default for Properties]: protocol/mod.rs lines 193-211. *)
Definition properties_default : properties_t :=
  MkProperties None None None None None None None None None None None None None.

(** [with_body]: inmessage.rs lines 32-36, outmessage.rs 28-32. *)
Definition with_body (b : bytes) : message :=
  MkMessage None None None None None None None (MkBody [b] [] [] None) 0.
(** [with_messages]: inmessage.rs 39-43, outmessage.rs 35-39. *)
Definition with_messages (l : list transfer_body) : message :=
  MkMessage None None None None None None None (MkBody [] [] l None) 0.
(** [set_header]: inmessage.rs 51-55, outmessage.rs 47-51. *)
Definition set_header (m : message) (h : header_t) : message :=
  MkMessage (m_message_format m) (Some h) (m_delivery_annotations m) (m_message_annotations m) (m_properties m)
            (m_application_properties m) (m_footer m) (m_body m) 0.
(** [set_properties]: inmessage.rs 63-76, outmessage.rs 59-72. The closure is a function on properties. *)
Definition set_properties (m : message) (f : properties_t -> properties_t) : message :=
  MkMessage (m_message_format m) (m_header m) (m_delivery_annotations m) (m_message_annotations m)
            (match m_properties m with
             | Some props => Some (f props)
             | None => Some (f properties_default)
             end)
            (m_application_properties m) (m_footer m) (m_body m) 0.
(** [HashMap::get] with a borrowed [&str] key: entries are compared by text. *)
Fixpoint hm_get_text (k : bytes) (m : list (str * variant)) : option variant :=
  match m with
  | [] => None
  | (k', v') :: m' => if str_eq_text k' k then Some v' else hm_get_text k m'
  end.
(** [InMessage::app_property]: inmessage.rs 79-85. *)
Definition in_app_property (m : message) (k : bytes) : option variant :=
  match m_application_properties m with
  | Some props => hm_get_text k props
  | None => None
  end.
Definition set_application_properties (m : message) (p : option (list (str * variant))) (s : Z) : message :=
  MkMessage (m_message_format m) (m_header m) (m_delivery_annotations m) (m_message_annotations m) (m_properties m)
            p (m_footer m) (m_body m) s.
(** [InMessage::set_app_property]: inmessage.rs 88-98. *)
Definition in_set_app_property (m : message) (k : str) (v : variant) : message :=
  set_application_properties m
    (match m_application_properties m with
     | Some props => Some (hm_insert str_eqb k v props)
     | None => Some (hm_insert str_eqb k v [])
     end) 0.
(** [OutMessage::app_properties]: outmessage.rs 75-77. *)
Definition out_app_properties (m : message) : option (list (str * variant)) := m_application_properties m.
(** [OutMessage::set_app_property]: outmessage.rs 80-90. *)
Definition out_set_app_property (m : message) (k : str) (v : variant) : message :=
  set_application_properties m
    (match m_application_properties m with
     | Some props => Some (props ++ [(k, v)])
     | None => Some [(k, v)]
     end) 0.
Definition set_size (m : message) (s : Z) : message := set_size_body m (m_body m) s.
(** [update]: inmessage.rs 101-107, outmessage.rs 93-99. *)
Definition update (m : message) (f : message -> message) : message := f (set_size m 0).
(** [if_some]: inmessage.rs 110-120, outmessage.rs 102-112. *)
Definition if_some {T} (m : message) (value : option T) (f : message -> T -> message) : message :=
  match value with
  | Some val => f (set_size m 0) val
  | None => m
  end.
(** [value]: inmessage.rs 128-130, outmessage.rs 120-122. *)
Definition message_value (m : message) : option variant := mb_value (m_body m).
(** [set_value]: inmessage.rs 133-136, outmessage.rs 125-128. The memo is left as it is. *)
Definition set_value (m : message) (v : variant) : message :=
  set_size_body m (MkBody (mb_data (m_body m)) (mb_sequence (m_body m)) (mb_messages (m_body m)) (Some v)) (m_size m).
(** [set_body]: inmessage.rs 139-146, outmessage.rs 131-138. *)
Definition set_body (m : message) (f : message_body -> message_body) : message :=
  set_size_body m (f (m_body m)) 0.
(** [MessageBody::set_data]: body.rs 30-33; [MessageBody::data]: 18-24. *)
Definition body_set_data (b : message_body) (d : bytes) : message_body :=
  MkBody [d] (mb_sequence b) (mb_messages b) (mb_value b).
Definition body_first_data (b : message_body) : option bytes :=
  match mb_data b with
  | [] => None
  | d :: _ => Some d
  end.
Definition set_correlation_id (c : option message_id) (p : properties_t) : properties_t :=
  MkProperties (properties_message_id p) (properties_user_id p) (properties_to p) (properties_subject p)
    (properties_reply_to p) c (properties_content_type p) (properties_content_encoding p)
    (properties_absolute_expiry_time p) (properties_creation_time p) (properties_group_id p)
    (properties_group_sequence p) (properties_reply_to_group_id p).
(** [reply_message]: inmessage.rs 149-153, outmessage.rs 141-145. *)
Definition reply_message (m : message) : message :=
  if_some message_default (m_properties m)
    (fun msg data => set_properties msg (set_correlation_id (properties_message_id data))).

(** ** [Decode]: inmessage.rs lines 156-200, outmessage.rs lines 148-192 *)

(** One arm of the [match sec]. *)
Definition message_add_section (m : message) (sec : section) : message :=
  match sec with
  | SEC_Header val =>
    MkMessage (m_message_format m) (Some val) (m_delivery_annotations m) (m_message_annotations m) (m_properties m)
              (m_application_properties m) (m_footer m) (m_body m) (m_size m)
  | SEC_DeliveryAnnotations val =>
    MkMessage (m_message_format m) (m_header m) (Some val) (m_message_annotations m) (m_properties m)
              (m_application_properties m) (m_footer m) (m_body m) (m_size m)
  | SEC_MessageAnnotations val =>
    MkMessage (m_message_format m) (m_header m) (m_delivery_annotations m) (Some val) (m_properties m)
              (m_application_properties m) (m_footer m) (m_body m) (m_size m)
  | SEC_ApplicationProperties val => set_application_properties m (Some val) (m_size m)
  | SEC_Footer val =>
    MkMessage (m_message_format m) (m_header m) (m_delivery_annotations m) (m_message_annotations m) (m_properties m)
              (m_application_properties m) (Some val) (m_body m) (m_size m)
  | SEC_Properties val =>
    MkMessage (m_message_format m) (m_header m) (m_delivery_annotations m) (m_message_annotations m) (Some val)
              (m_application_properties m) (m_footer m) (m_body m) (m_size m)
  | SEC_AmqpSequence val =>
    let b := m_body m in
    set_size_body m (MkBody (mb_data b) (mb_sequence b ++ [val]) (mb_messages b) (mb_value b)) (m_size m)
  | SEC_AmqpValue val =>
    let b := m_body m in
    set_size_body m (MkBody (mb_data b) (mb_sequence b) (mb_messages b) (Some val)) (m_size m)
  | SEC_Data val =>
    let b := m_body m in
    set_size_body m (MkBody (mb_data b ++ [val]) (mb_sequence b) (mb_messages b) (mb_value b)) (m_size m)
  end.

(** The loop; [fuel] is more than the number of input bytes at the start. *)
Fixpoint message_decode_loop (fuel : nat) (md : mode) (m : message) (inp : bytes) : res (bytes * message) :=
  match fuel with
  | O => Oof
  | S f =>
    '(rest, sec) <- decode section_dec md inp ;;
    let m1 := message_add_section m sec in
    match rest with
    | [] => Ok (inp, m1)
    | _ => message_decode_loop f md m1 rest
    end
  end.
Definition message_decode (md : mode) (inp : bytes) : res (bytes * message) :=
  message_decode_loop (S (length inp)) md message_default inp.
