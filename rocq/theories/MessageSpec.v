(** Specification for messages (part 3.2 of the AMQP 1.0 standard): a message is a sequence of sections. *)

From Verif Require Import Frames Utf8Spec Valid Wire TypeSpec CompositeSpec AllTypes CodecSpec.
Open Scope list_scope.
Open Scope Z_scope.

(** ** Well-typed messages *)
Definition entries_valid (m : list (str * variant)) : Prop := Forall (fun kv => str_ok (fst kv) /\ variant_ok (snd kv)) m.
Definition message_valid_ {TB} (P : TB -> Prop) (m : message_ TB) : Prop :=
  opt_prop (s_valid header_S) (m_header m) /\
  opt_prop (s_valid fields_S) (m_delivery_annotations m) /\
  opt_prop (s_valid fields_S) (m_message_annotations m) /\
  opt_prop (s_valid properties_S) (m_properties m) /\
  opt_prop entries_valid (m_application_properties m) /\
  opt_prop (s_valid fields_S) (m_footer m) /\
  Forall bytes_ok (mb_data (m_body m)) /\
  Forall (Forall variant_ok) (mb_sequence (m_body m)) /\
  opt_prop variant_ok (mb_value (m_body m)) /\
  all_prop P (mb_messages (m_body m)).
Fixpoint body_valid (t : transfer_body) : Prop :=
  match t with
  | TBData b => bytes_ok b
  | TBMessageIn m | TBMessageOut m => message_valid_ body_valid m
  end.
Definition message_valid : message -> Prop := message_valid_ body_valid.

(** The number of header sections in a message and the messages nested in it. *)
Definition message_headers_ {TB} (f : TB -> Z) (m : message_ TB) : Z :=
  match m_header m with Some _ => 1 | None => 0 end + zsum f (mb_messages (m_body m)).
Fixpoint body_headers (t : transfer_body) : Z :=
  match t with
  | TBData _ => 0
  | TBMessageIn m | TBMessageOut m => message_headers_ body_headers m
  end.
Definition message_headers : message -> Z := message_headers_ body_headers.

(** The encoding of a message, and of what a transfer carries. *)
Definition message_bytes (m : message) : bytes := wbytes (message_enc m).
Definition payload (t : transfer_body) : bytes := wbytes (transfer_body_enc t).

(** The memo of the size is not set, or was set to what would be computed now; also in nested messages. *)
Fixpoint body_memo_ok (t : transfer_body) : Prop :=
  match t with
  | TBData _ => True
  | TBMessageIn m | TBMessageOut m =>
      (m_size m = 0 \/ m_size m = message_fresh_size m) /\ all_prop body_memo_ok (mb_messages (m_body m))
  end.
Definition message_memo_ok (m : message) : Prop :=
  (m_size m = 0 \/ m_size m = message_fresh_size m) /\ Forall body_memo_ok (mb_messages (m_body m)).

(** ** Sections *)
Definition opt_list {A B} (f : A -> B) (o : option A) : list B := match o with Some x => [f x] | None => [] end.
Definition body_sections (b : message_body) : list section :=
  map SEC_Data (mb_data b) ++ map SEC_AmqpSequence (mb_sequence b) ++ opt_list SEC_AmqpValue (mb_value b)
  ++ map (fun t => SEC_Data (payload t)) (mb_messages b).
(** The sections of a message in the order of the standard.  There is always a body; nested messages are data. *)
Definition message_sections (m : message) : list section :=
  opt_list SEC_Header (m_header m) ++ opt_list SEC_DeliveryAnnotations (m_delivery_annotations m)
  ++ opt_list SEC_MessageAnnotations (m_message_annotations m) ++ opt_list SEC_Properties (m_properties m)
  ++ opt_list SEC_ApplicationProperties (m_application_properties m)
  ++ match body_sections (m_body m) with [] => [SEC_Data []] | l => l end
  ++ opt_list SEC_Footer (m_footer m).

(** The message that a sequence of sections, in any order, stands for: of sections that may occur once the last one counts. *)
Fixpoint last_some {A} (f : section -> option A) (l : list section) : option A :=
  match l with
  | [] => None
  | s :: r => match last_some f r with Some x => Some x | None => f s end
  end.
Fixpoint all_some {A} (f : section -> option A) (l : list section) : list A :=
  match l with
  | [] => []
  | s :: r => match f s with Some x => x :: all_some f r | None => all_some f r end
  end.
Definition message_of (l : list section) : message :=
  MkMessage None
    (last_some (fun s => match s with SEC_Header x => Some x | _ => None end) l)
    (last_some (fun s => match s with SEC_DeliveryAnnotations x => Some x | _ => None end) l)
    (last_some (fun s => match s with SEC_MessageAnnotations x => Some x | _ => None end) l)
    (last_some (fun s => match s with SEC_Properties x => Some x | _ => None end) l)
    (last_some (fun s => match s with SEC_ApplicationProperties x => Some x | _ => None end) l)
    (last_some (fun s => match s with SEC_Footer x => Some x | _ => None end) l)
    (MkBody (all_some (fun s => match s with SEC_Data x => Some x | _ => None end) l)
            (all_some (fun s => match s with SEC_AmqpSequence x => Some x | _ => None end) l)
            []
            (last_some (fun s => match s with SEC_AmqpValue x => Some x | _ => None end) l))
    0.

(** ** What comes back from a message that was sent *)
Definition received_body (b : message_body) : message_body :=
  MkBody (match mb_data b ++ map payload (mb_messages b), mb_value b with
          | [], None => [[]]
          | l, _ => l
          end) [] [] (option_map canon (mb_value b)).
Definition received_message (m : message) : message :=
  MkMessage None (option_map (s_canon header_S) (m_header m))
    (option_map (s_canon fields_S) (m_delivery_annotations m))
    (option_map (s_canon fields_S) (m_message_annotations m))
    (option_map (s_canon properties_S) (m_properties m))
    (option_map (s_canon string_variant_map_S) (m_application_properties m))
    (option_map (s_canon fields_S) (m_footer m))
    (received_body (m_body m)) 0.

(** What can be sent: all sections encodable and readable, and no header in a nested message (there the size
    written before it would be wrong). *)
Definition section_sendable (s : section) : Prop :=
  s_valid section_S s /\ s_encodable section_S s /\ s_size section_S s < 2 ^ 32 /\ s_decodable section_S (s_canon section_S s).
Definition message_sendable (m : message) : Prop :=
  Forall section_sendable (message_sections m) /\
  Forall (fun t => body_valid t /\ body_memo_ok t /\ body_headers t = 0) (mb_messages (m_body m)).

(** ** Building messages

    [message_forget m]: the same message, never asked for its size. *)
Definition message_forget_ {TB} (f : TB -> TB) (m : message_ TB) : message_ TB :=
  MkMessage (m_message_format m) (m_header m) (m_delivery_annotations m) (m_message_annotations m) (m_properties m)
    (m_application_properties m) (m_footer m)
    (MkBody (mb_data (m_body m)) (mb_sequence (m_body m)) (map f (mb_messages (m_body m))) (mb_value (m_body m))) 0.
Fixpoint body_forget (t : transfer_body) : transfer_body :=
  match t with
  | TBData b => TBData b
  | TBMessageIn m => TBMessageIn (message_forget_ body_forget m)
  | TBMessageOut m => TBMessageOut (message_forget_ body_forget m)
  end.
Definition message_forget : message -> message := message_forget_ body_forget.

(** [steps m m']: [m'] is reached from [m] by builder calls other than [set_value], questions for the size, and encoding. *)
Inductive steps : message -> message -> Prop :=
| st_done m : steps m m
| st_size m m' : steps (message_sized m) m' -> steps m m'
| st_encode m m' : steps (message_encoded m) m' -> steps m m'
| st_header m h m' : steps (set_header m h) m' -> steps m m'
| st_properties m f m' : steps (set_properties m f) m' -> steps m m'
| st_in_property m k v m' : steps (in_set_app_property m k v) m' -> steps m m'
| st_out_property m k v m' : steps (out_set_app_property m k v) m' -> steps m m'
| st_body m f m' : Forall body_memo_ok (mb_messages (f (m_body m))) -> steps (set_body m f) m' -> steps m m'
| st_update m f m' : steps (set_size m 0) (f (set_size m 0)) -> steps (update m f) m' -> steps m m'
| st_if_some T m (o : option T) f m' : (forall x, o = Some x -> steps (set_size m 0) (f (set_size m 0) x)) ->
    steps (if_some m o f) m' -> steps m m'.

(** The value set last for a key (compared by text), if any. *)
Fixpoint last_set (k : bytes) (sets : list (str * variant)) : option variant :=
  match sets with
  | [] => None
  | (k', v) :: r => match last_set k r with
                    | Some w => Some w
                    | None => if list_eq_dec Z.eq_dec (str_bytes k') k then Some v else None
                    end
  end.

(** The kinds of sections. *)
Definition section_kind (s : section) : Z :=
  match s with
  | SEC_Header _ => 0x70 | SEC_DeliveryAnnotations _ => 0x71 | SEC_MessageAnnotations _ => 0x72 | SEC_Properties _ => 0x73
  | SEC_ApplicationProperties _ => 0x74 | SEC_Data _ => 0x75 | SEC_AmqpSequence _ => 0x76 | SEC_AmqpValue _ => 0x77 | SEC_Footer _ => 0x78
  end.

(** ** Equality of messages

    Headers agree, and properties up to the storage of symbols and fractions of milliseconds; annotations, application properties and footer have the same entries (keys compared by text,
    values by [==]); the bodies have the same data, no sequences or nested messages, and equal values. *)
Definition entries_equal (l l' : list (str * variant)) : Prop :=
  Forall2 (fun a b => str_bytes (fst a) = str_bytes (fst b) /\ variant_eqb (snd a) (snd b) = true) l l'.
Definition opt_rel {A} (R : A -> A -> Prop) (o o' : option A) : Prop :=
  match o, o' with Some x, Some y => R x y | None, None => True | _, _ => False end.
Definition same_properties (p p' : properties_t) : Prop :=
  p' = MkProperties (properties_message_id p) (properties_user_id p) (properties_to p) (properties_subject p)
    (properties_reply_to p) (properties_correlation_id p)
    (option_map (fun s => SByteStr (str_bytes s)) (properties_content_type p))
    (option_map (fun s => SByteStr (str_bytes s)) (properties_content_encoding p))
    (option_map (fun t => instant (millis t)) (properties_absolute_expiry_time p))
    (option_map (fun t => instant (millis t)) (properties_creation_time p))
    (properties_group_id p) (properties_group_sequence p) (properties_reply_to_group_id p).
Definition same_content (m m' : message) : Prop :=
  m_header m' = m_header m /\
  opt_rel entries_equal (m_delivery_annotations m) (m_delivery_annotations m') /\
  opt_rel entries_equal (m_message_annotations m) (m_message_annotations m') /\
  opt_rel same_properties (m_properties m) (m_properties m') /\
  opt_rel entries_equal (m_application_properties m) (m_application_properties m') /\
  opt_rel entries_equal (m_footer m) (m_footer m') /\
  mb_sequence (m_body m') = mb_sequence (m_body m) /\
  opt_rel (fun v w => variant_eqb v w = true) (mb_value (m_body m)) (mb_value (m_body m')).
(** Nothing is lost on the values in the message (see C05). *)
Definition entries_lossless (l : list (str * variant)) : Prop := Forall (fun kv => lossless (snd kv)) l.
Definition message_lossless (m : message) : Prop :=
  opt_prop entries_lossless (m_delivery_annotations m) /\ opt_prop entries_lossless (m_message_annotations m) /\
  opt_prop entries_lossless (m_application_properties m) /\ opt_prop entries_lossless (m_footer m) /\
  opt_prop lossless (mb_value (m_body m)).

(** ** Builders

    The sections of one kind, and the sections of other kinds. *)
Definition sections_of (k : Z) (m : message) : list section := filter (fun s => section_kind s =? k) (message_sections m).
Definition sections_except (k : Z) (m : message) : list section := filter (fun s => negb (section_kind s =? k)) (message_sections m).
(** [m'] differs from [m] in nothing but sections of kind [k] and the memo. *)
Definition only_changed (k : Z) (m m' : message) : Prop :=
  sections_except k m' = sections_except k m /\ m_message_format m' = m_message_format m /\ m_body m' = m_body m.
(** The parts of a body are data, sequences, and values. *)
Definition body_kind (k : Z) : Prop := k = 0x75 \/ k = 0x76 \/ k = 0x77.
Definition only_body_changed (m m' : message) : Prop :=
  filter (fun s => negb ((0x75 <=? section_kind s) && (section_kind s <=? 0x77))) (message_sections m') =
  filter (fun s => negb ((0x75 <=? section_kind s) && (section_kind s <=? 0x77))) (message_sections m) /\
  m_message_format m' = m_message_format m.
(** Setting a value in all messages nested in a body. *)
Definition edit_nested (v : variant) (b : message_body) : message_body :=
  MkBody (mb_data b) (mb_sequence b) (map (fun t => match t with TBMessageOut n => TBMessageOut (set_value n v) | _ => t end) (mb_messages b)) (mb_value b).
