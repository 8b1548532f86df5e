(** Specification: the types of the crate that can be encoded and decoded, as one inductive family.

    [amqp_type S]: [S] describes such a type.  [element A width S]: values of that type may also be elements of an array,
    where [A] encodes them without their format code, in [width] bytes.  Messages, [Transfer] and [Frame] are treated apart. *)

From Coq Require Import String.
From Verif Require Import Definitions Utf8Spec Valid Wire TypeSpec CompositeSpec.
Open Scope Z_scope.

Inductive amqp_type : forall {T}, tspec T -> Prop :=
| ty_bool : amqp_type bool_S
| ty_u8 : amqp_type u8_S
| ty_u16 : amqp_type u16_S
| ty_u32 : amqp_type u32_S
| ty_u64 : amqp_type u64_S
| ty_i8 : amqp_type i8_S
| ty_i16 : amqp_type i16_S
| ty_i32 : amqp_type i32_S
| ty_i64 : amqp_type i64_S
| ty_f32 : amqp_type f32_S
| ty_f64 : amqp_type f64_S
| ty_char : amqp_type char_S
| ty_timestamp : amqp_type datetime_S
| ty_uuid : amqp_type uuid_S
| ty_binary : amqp_type bin_S
| ty_string : amqp_type bstr_S
| ty_str : amqp_type str_S
| ty_symbol : amqp_type symbol_S
| ty_variant : amqp_type variant_S
| ty_list : amqp_type list_S
| ty_vec_string_map : amqp_type vecmap_S
| ty_role : amqp_type role_S
| ty_sender_settle_mode : amqp_type sender_settle_mode_S
| ty_receiver_settle_mode : amqp_type receiver_settle_mode_S
| ty_sasl_code : amqp_type sasl_code_S
| ty_terminus_durability : amqp_type terminus_durability_S
| ty_terminus_expiry_policy : amqp_type terminus_expiry_policy_S
| ty_amqp_error : amqp_type amqp_error_S
| ty_connection_error : amqp_type connection_error_S
| ty_session_error : amqp_type session_error_S
| ty_link_error : amqp_type link_error_S
| ty_error_condition : amqp_type error_condition_S
| ty_distribution_mode : amqp_type distribution_mode_S
| ty_message_id : amqp_type message_id_S
| ty_composite K : In K all_composites -> amqp_type (composite_S K)
| ty_delivery_state : amqp_type delivery_state_S
| ty_outcome : amqp_type outcome_S
| ty_sasl_frame_body : amqp_type sasl_frame_body_S
| ty_section : amqp_type section_S
| ty_option T (S : tspec T) : amqp_type S -> ~ In 0x40 (s_codes S) -> amqp_type (option_S S)
| ty_map K V (KO : key K) (SK : tspec K) (SV : tspec V) : amqp_type SK -> amqp_type SV -> amqp_type (map_S KO SK SV)
| ty_vec T A width (S : tspec T) : element A width S -> amqp_type (vec_S A width S)
| ty_multiple T A width (S : tspec T) : element A width S -> ~ In 0xe0 (s_codes S) -> ~ In 0xf0 (s_codes S) ->
    amqp_type (multiple_S A width S)
with element : forall {T}, aenc T -> (T -> Z) -> tspec T -> Prop :=
| el_bool : element bool_A (fun _ => 1) bool_S
| el_u8 : element u8_A (fun _ => 1) u8_S
| el_u16 : element u16_A (fun _ => 2) u16_S
| el_u32 : element u32_A (fun _ => 4) u32_S
| el_u64 : element u64_A (fun _ => 8) u64_S
| el_i8 : element i8_A (fun _ => 1) i8_S
| el_i16 : element i16_A (fun _ => 2) i16_S
| el_i32 : element i32_A (fun _ => 4) i32_S
| el_i64 : element i64_A (fun _ => 8) i64_S
| el_f32 : element f32_A (fun _ => 4) f32_S
| el_f64 : element f64_A (fun _ => 8) f64_S
| el_char : element char_A (fun _ => 4) char_S
| el_timestamp : element datetime_A (fun _ => 8) datetime_S
| el_uuid : element uuid_A (fun _ => 16) uuid_S
| el_binary : element bin_A (fun b => 4 + zlen b) bin_S
| el_string : element bstr_A (fun b => 4 + zlen b) bstr_S
| el_symbol : element symbol_A (fun s => 4 + zlen (str_bytes s)) symbol_S
| el_map K V (KO : key K) (SK : tspec K) (SV : tspec V) : amqp_type SK -> amqp_type SV ->
    element (map_A (c_E (s_codec SK)) (c_E (s_codec SV)))
      (fun m => 8 + total_width (fun kv => s_size SK (fst kv) + s_size SV (snd kv)) m) (map_S KO SK SV).
