(** Model of the conversions and accessors of the crate: the [From] implementations, written or derived, of
    /repo/src/types/*.rs, /repo/src/protocol/*.rs and /repo/src/framing.rs, and the small accessors of these files and of
    /repo/src/errors.rs. *)

From Coq Require Import String.
From Verif Require Import Io.
Open Scope string_scope.
Open Scope Z_scope.

(** ** [Variant]: [derive(From)], variant.rs line 12, one for each of lines 18-84; lines 87-97 *)
Definition variant_from_bool (x : bool) : variant := VBoolean x.
Definition variant_from_u8 (x : Z) : variant := VUbyte x.
Definition variant_from_u16 (x : Z) : variant := VUshort x.
Definition variant_from_u32 (x : Z) : variant := VUint x.
Definition variant_from_u64 (x : Z) : variant := VUlong x.
Definition variant_from_i8 (x : Z) : variant := VByte x.
Definition variant_from_i16 (x : Z) : variant := VShort x.
Definition variant_from_i32 (x : Z) : variant := VInt x.
Definition variant_from_i64 (x : Z) : variant := VLong x.
(** From [OrderedFloat<f32>] and [OrderedFloat<f64>], lines 45 and 48; a float is its bits. *)
Definition variant_from_f32 (x : Z) : variant := VFloat x.
Definition variant_from_f64 (x : Z) : variant := VDouble x.
Definition variant_from_char (x : Z) : variant := VChar x.
Definition variant_from_datetime (x : datetime) : variant := VTimestamp x.
Definition variant_from_uuid (x : bytes) : variant := VUuid x.
Definition variant_from_bin (x : bytes) : variant := VBinary x.
Definition variant_from_str (x : str) : variant := VString x.
Definition variant_from_symbol (x : symbol) : variant := VSymbol x.
Definition variant_from_static_symbol (x : bytes) : variant := VStaticSymbol x.
Definition variant_from_list (x : list variant) : variant := VList x.
(** From [VariantMap]; [VariantMap::new] (lines 132-136) wraps the map. *)
Definition variant_from_map (x : list (variant * variant)) : variant := VMap x.
(** From [(Descriptor, Box<Variant>)], line 84. *)
Definition variant_from_described (x : descriptor * variant) : variant := let (d, v) := x in VDescribed d v.
(** [From<ByteStr>]: lines 87-91.  [From<&'static str>]: lines 93-97. *)
Definition variant_from_bytestr (s : bytes) : variant := variant_from_str (str_from_bytestr s).
Definition variant_from_static (s : bytes) : variant := variant_from_str (str_from_static s).

(** ** Texts *)
(** [From<String<Bytes>> for Symbol]: symbol.rs lines 39-43. *)
Definition symbol_from_bytestr (b : bytes) : symbol := SByteStr b.
(** [From<&'static str> for StaticSymbol]: symbol.rs lines 60-64; the newtype is dropped. *)
Definition static_symbol_from_static (b : bytes) : bytes := b.
(** [PartialEq<str> for Symbol]: symbol.rs lines 51-55. *)
Definition symbol_eq_text (s : symbol) (other : bytes) : bool := str_eq_text s other.
(** [Borrow<str>] for [Str] (types/mod.rs lines 134-138) and [Symbol] (symbol.rs lines 45-49): [as_str]. *)
Definition str_borrow (s : str) : bytes := str_bytes s.
Definition symbol_borrow (s : symbol) : bytes := str_bytes s.
(** [Str::as_bytes_str]: types/mod.rs lines 98-103; [Symbol::as_bytes_str] (symbol.rs lines 24-26) delegates.  A static text is
    validated again and the result unwrapped: [None] is the panic. *)
Definition str_as_bytes_str (s : str) : option bytes :=
  match s with
  | SByteStr b => Some b
  | SStatic b => if utf8_valid b then Some b else None
  end.
(** [Variant::as_bytes_str]: variant.rs lines 118-124.  The outer option is that of the result. *)
Definition variant_as_bytes_str (v : variant) : option (option bytes) :=
  match v with
  | VString s => Some (str_as_bytes_str s)
  | VSymbol s => Some (str_as_bytes_str s)
  | _ => None
  end.

(** ** Collections: types/mod.rs lines 19-71.  The newtypes are dropped; [deref] (lines 42-54) is the vector itself. *)
(** [From<Vec<T>> for Multiple<T>], derived, line 19. *)
Definition multiple_from_vec {T} (l : list T) : list T := l.
(** [Multiple::len], [is_empty], [iter]: lines 23-33; the same for [List]: lines 60-70. *)
Definition multiple_len {T} (l : list T) : Z := zlen l.
Definition multiple_is_empty {T} (l : list T) : bool := match l with [] => true | _ => false end.
Definition multiple_iter {T} (l : list T) : list T := l.
(** [Default for Multiple<T>]: lines 36-40.  [Default for VecVariantMap]: variant.rs lines 147-151 (capacity 8, no entries);
    its [deref] (lines 153-165) is the vector. *)
Definition multiple_default {T} : list T := [].
Definition vecmap_default : list (str * variant) := [].

(** ** [MessageId] and [ErrorCondition]: [derive(From)], protocol/mod.rs lines 51-57 and 99-106 *)
Definition message_id_from_u64 (x : Z) : message_id := MIUlong x.
Definition message_id_from_uuid (x : bytes) : message_id := MIUuid x.
Definition message_id_from_bin (x : bytes) : message_id := MIBinary x.
Definition message_id_from_bytestr (x : bytes) : message_id := MIString x.
Definition condition_from_amqp_error (x : amqp_error) : error_condition := EC_AmqpError x.
Definition condition_from_connection_error (x : connection_error) : error_condition := EC_ConnectionError x.
Definition condition_from_session_error (x : session_error) : error_condition := EC_SessionError x.
Definition condition_from_link_error (x : link_error) : error_condition := EC_LinkError x.
Definition condition_from_symbol (x : symbol) : error_condition := EC_Custom x.

(** ** [TransferBody]: [derive(From)], protocol/mod.rs lines 213-218 *)
Definition body_from_bin (x : bytes) : transfer_body := TBData x.
Definition body_from_in (x : message) : transfer_body := TBMessageIn x.
Definition body_from_out (x : message) : transfer_body := TBMessageOut x.

(** ** [Frame]: [derive(From)], definitions.rs lines 9-21; [Frame::name]: lines 22-37 *)
Definition frame_from_open (x : open_t) : frame := FR_Open x.
Definition frame_from_begin (x : begin_t) : frame := FR_Begin x.
Definition frame_from_attach (x : attach_t) : frame := FR_Attach x.
Definition frame_from_flow (x : flow_t) : frame := FR_Flow x.
Definition frame_from_transfer (x : transfer_t) : frame := FR_Transfer x.
Definition frame_from_disposition (x : disposition_t) : frame := FR_Disposition x.
Definition frame_from_detach (x : detach_t) : frame := FR_Detach x.
Definition frame_from_end (x : end_t) : frame := FR_End x.
Definition frame_from_close (x : close_t) : frame := FR_Close x.
Definition frame_name (f : frame) : string :=
  match f with
  | FR_Open _ => "Open"
  | FR_Begin _ => "Begin"
  | FR_Attach _ => "Attach"
  | FR_Flow _ => "Flow"
  | FR_Transfer _ => "Transfer"
  | FR_Disposition _ => "Disposition"
  | FR_Detach _ => "Detach"
  | FR_End _ => "End"
  | FR_Close _ => "Close"
  | FR_Empty => "Empty"
  end.

(** ** framing.rs *)
(** [AmqpFrame::new], [channel_id], [performative], [into_parts]: lines 18-38. *)
Definition amqp_frame_new (channel_id : Z) (performative : frame) : amqp_frame := MkAmqpFrame channel_id performative.
Definition amqp_frame_into_parts (f : amqp_frame) : Z * frame := (af_channel_id f, af_performative f).
(** [SaslFrame::new]: lines 47-49; [From]: lines 52-80. *)
Definition sasl_frame_new (body : sasl_frame_body) : sasl_frame := MkSaslFrame body.
Definition sasl_frame_from_mechanisms (x : sasl_mechanisms_t) : sasl_frame := sasl_frame_new (SB_SaslMechanisms x).
Definition sasl_frame_from_init (x : sasl_init_t) : sasl_frame := sasl_frame_new (SB_SaslInit x).
Definition sasl_frame_from_challenge (x : sasl_challenge_t) : sasl_frame := sasl_frame_new (SB_SaslChallenge x).
Definition sasl_frame_from_response (x : sasl_response_t) : sasl_frame := sasl_frame_new (SB_SaslResponse x).
Definition sasl_frame_from_outcome (x : sasl_outcome_t) : sasl_frame := sasl_frame_new (SB_SaslOutcome x).

(** ** [AmqpCodecError]: errors.rs lines 28-35, with the case that the codecs of io.rs never make themselves; the type of
    [std::io::Error] is a parameter *)
Inductive codec_error (io_error : Type) := KParse (e : perr) | KUnparsed | KIo (e : option io_error).
Arguments KParse {io_error}. Arguments KUnparsed {io_error}. Arguments KIo {io_error}.
(** [Clone]: lines 37-45.  The derived clone of a parse error is the parse error. *)
Definition codec_error_clone {io_error} (e : codec_error io_error) : codec_error io_error :=
  match e with
  | KParse err => KParse err
  | KUnparsed => KUnparsed
  | KIo _ => KIo None
  end.
(** [From<std::io::Error>]: lines 47-51. *)
Definition codec_error_from_io {io_error} (err : io_error) : codec_error io_error := KIo (Some err).

(** ** [ArrayDecode for Symbol]: decode.rs lines 244-249 (a bound of [Multiple]; nothing calls it) *)
Definition symbol_array_decode (inp : bytes) : res (bytes * symbol) :=
  '(inp1, b) <- read_bytes_u32 inp ;; s <- from_utf8 b ;; Ok (inp1, symbol_from_slice s).
