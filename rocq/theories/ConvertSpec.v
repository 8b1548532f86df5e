(** Specification: conversions keep what is sent and received (file ConvertClaims). *)

From Coq Require Import String.
From Verif Require Import Io Convert Utf8Spec Valid Wire TypeSpec CompositeSpec AllTypes CodecSpec FrameSpec.
Open Scope string_scope.
Open Scope Z_scope.

(** How values of a type are sent and received: the size announced, the bytes written, and the reader. *)
Record way (X : Type) : Type := MkWay { w_size : X -> Z; w_bytes : X -> bytes; w_read : mode -> bytes -> res (bytes * X) }.
Arguments MkWay {X}. Arguments w_size {X}. Arguments w_bytes {X}. Arguments w_read {X}.
Definition way_of {X} (C : codec X) : way X :=
  MkWay (e_size (c_E C)) (fun x => wbytes (e_enc (c_E C) x)) (decode (c_D C)).
Definition spec_way {X} (S : tspec X) : way X := way_of (s_codec S).
Definition frame_way : way frame := MkWay frame_size frame_bytes frame_decode.

(** The conversions from a type that can be sent and received by itself. *)
Inductive conversion : forall {X Y}, way X -> way Y -> (X -> Y) -> Prop :=
| cv_bool : conversion (spec_way bool_S) (spec_way variant_S) variant_from_bool
| cv_u8 : conversion (spec_way u8_S) (spec_way variant_S) variant_from_u8
| cv_u16 : conversion (spec_way u16_S) (spec_way variant_S) variant_from_u16
| cv_u32 : conversion (spec_way u32_S) (spec_way variant_S) variant_from_u32
| cv_u64 : conversion (spec_way u64_S) (spec_way variant_S) variant_from_u64
| cv_i8 : conversion (spec_way i8_S) (spec_way variant_S) variant_from_i8
| cv_i16 : conversion (spec_way i16_S) (spec_way variant_S) variant_from_i16
| cv_i32 : conversion (spec_way i32_S) (spec_way variant_S) variant_from_i32
| cv_i64 : conversion (spec_way i64_S) (spec_way variant_S) variant_from_i64
| cv_f32 : conversion (spec_way f32_S) (spec_way variant_S) variant_from_f32
| cv_f64 : conversion (spec_way f64_S) (spec_way variant_S) variant_from_f64
| cv_char : conversion (spec_way char_S) (spec_way variant_S) variant_from_char
| cv_datetime : conversion (spec_way datetime_S) (spec_way variant_S) variant_from_datetime
| cv_uuid : conversion (spec_way uuid_S) (spec_way variant_S) variant_from_uuid
| cv_bin : conversion (spec_way bin_S) (spec_way variant_S) variant_from_bin
| cv_bytestr : conversion (spec_way bstr_S) (spec_way variant_S) variant_from_bytestr
| cv_str : conversion (spec_way str_S) (spec_way variant_S) variant_from_str
| cv_symbol : conversion (spec_way symbol_S) (spec_way variant_S) variant_from_symbol
| cv_list : conversion (spec_way list_S) (spec_way variant_S) variant_from_list
| cv_map : conversion (spec_way (map_S variant_key variant_S variant_S)) (spec_way variant_S) variant_from_map
| cv_text : conversion (spec_way bstr_S) (spec_way str_S) str_from_bytestr
| cv_id_u64 : conversion (spec_way u64_S) (spec_way message_id_S) message_id_from_u64
| cv_id_uuid : conversion (spec_way uuid_S) (spec_way message_id_S) message_id_from_uuid
| cv_id_bin : conversion (spec_way bin_S) (spec_way message_id_S) message_id_from_bin
| cv_id_bytestr : conversion (spec_way bstr_S) (spec_way message_id_S) message_id_from_bytestr
| cv_amqp_error : conversion (spec_way amqp_error_S) (spec_way error_condition_S) condition_from_amqp_error
| cv_connection_error : conversion (spec_way connection_error_S) (spec_way error_condition_S) condition_from_connection_error
| cv_session_error : conversion (spec_way session_error_S) (spec_way error_condition_S) condition_from_session_error
| cv_link_error : conversion (spec_way link_error_S) (spec_way error_condition_S) condition_from_link_error
| cv_open : conversion (spec_way open_S) frame_way frame_from_open
| cv_begin : conversion (spec_way begin_S) frame_way frame_from_begin
| cv_attach : conversion (spec_way attach_S) frame_way frame_from_attach
| cv_flow : conversion (spec_way flow_S) frame_way frame_from_flow
| cv_transfer : conversion (way_of transfer_C) frame_way frame_from_transfer
| cv_disposition : conversion (spec_way disposition_S) frame_way frame_from_disposition
| cv_detach : conversion (spec_way detach_S) frame_way frame_from_detach
| cv_end : conversion (spec_way end_S) frame_way frame_from_end
| cv_close : conversion (spec_way close_S) frame_way frame_from_close.
(** Those to a SASL frame. *)
Inductive sasl_conversion : forall {X}, way X -> (X -> sasl_frame) -> Prop :=
| sc_mechanisms : sasl_conversion (spec_way sasl_mechanisms_S) sasl_frame_from_mechanisms
| sc_init : sasl_conversion (spec_way sasl_init_S) sasl_frame_from_init
| sc_challenge : sasl_conversion (spec_way sasl_challenge_S) sasl_frame_from_challenge
| sc_response : sasl_conversion (spec_way sasl_response_S) sasl_frame_from_response
| sc_outcome : sasl_conversion (spec_way sasl_outcome_S) sasl_frame_from_outcome.

(** All the ways to make a [Str], a [Symbol] or a text [Variant] of a text. *)
Inductive made_str : bytes -> str -> Prop :=
| ms_from_str b : made_str b (str_from_str b)
| ms_static b : made_str b (str_from_static b)
| ms_bytestr b : made_str b (str_from_bytestr b)
| ms_slice b : made_str b (symbol_from_slice b)
| ms_symbol_static b : made_str b (symbol_from_static b)
| ms_symbol_bytestr b : made_str b (symbol_from_bytestr b).
Inductive made_variant : bytes -> variant -> Prop :=
| mv_static b : made_variant b (variant_from_static b)
| mv_bytestr b : made_variant b (variant_from_bytestr b)
| mv_str b s : made_str b s -> made_variant b (variant_from_str s)
| mv_symbol b s : made_str b s -> made_variant b (variant_from_symbol s).

(** The name of a performative in the standard: small letters between "amqp:" and ":list". *)
Definition small (c : Ascii.ascii) : Ascii.ascii :=
  let n := Ascii.nat_of_ascii c in if (Nat.leb 65 n && Nat.leb n 90)%bool then Ascii.ascii_of_nat (n + 32) else c.
Fixpoint small_letters (s : string) : string :=
  match s with
  | EmptyString => EmptyString
  | String c r => String (small c) (small_letters r)
  end.
