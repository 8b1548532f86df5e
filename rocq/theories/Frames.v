(** Model of the frame layer: [Transfer] and [Frame] of /repo/src/protocol/definitions.rs, /repo/src/framing.rs,
    the frame encoders of /repo/src/codec/encode.rs (lines 718-748) and decoders of /repo/src/codec/decode.rs
    (lines 463-499). *)

From Coq Require Import String.
From Verif Require Export Message.
Open Scope string_scope.
Open Scope list_scope.
Open Scope Z_scope.

(** ** [Transfer]: definitions.rs lines 2189-2202 *)
Record transfer_t : Type := MkTransfer {
  transfer_handle : Z;
  transfer_delivery_id : option Z;
  transfer_delivery_tag : option bytes;
  transfer_message_format : option Z;
  transfer_settled : option bool;
  transfer_more : bool;
  transfer_rcv_settle_mode : option receiver_settle_mode;
  transfer_state : option delivery_state;
  transfer_resume : bool;
  transfer_aborted : bool;
  transfer_batchable : bool;
  transfer_body_f : option transfer_body
}.

(** [decode_transfer_inner]: lines 2244-2374. *)
Definition decode_transfer_inner (md : mode) (inp : bytes) : res (bytes * transfer_t) :=
  '(s0, remainder) <- open_list md inp ;;
  '(s1, handle) <- req_field "handle" u32_C md s0 ;;
  '(s2, delivery_id) <- opt_field u32_C md s1 ;;
  '(s3, delivery_tag) <- opt_field bin_C md s2 ;;
  '(s4, message_format) <- opt_field u32_C md s3 ;;
  '(s5, settled) <- opt_field bool_C md s4 ;;
  '(s6, more) <- def_field bool_C false md s5 ;;
  '(s7, rcv_settle_mode) <- opt_field receiver_settle_mode_C md s6 ;;
  '(s8, state) <- opt_field delivery_state_C md s7 ;;
  '(s9, resume) <- def_field bool_C false md s8 ;;
  '(s10, aborted) <- def_field bool_C false md s9 ;;
  '(s11, batchable) <- def_field bool_C false md s10 ;;
  let '(body, remainder1) := match remainder with
                            | [] => (None, remainder)
                            | _ => (Some (TBData remainder), [])
                            end in
  Ok (remainder1, MkTransfer handle delivery_id delivery_tag message_format settled more rcv_settle_mode state resume aborted batchable body).

(** content size, [encoded_size_transfer_inner] (lines 2375-2396) and [encode_transfer_inner] (lines 2397-2435);
    FIELD_COUNT: lines 2203-2242. *)
Definition transfer_content_size (v : transfer_t) : Z :=
  0
  + e_size (c_E u32_C) (transfer_handle v)
  + e_size (c_E (option_C u32_C)) (transfer_delivery_id v)
  + e_size (c_E (option_C bin_C)) (transfer_delivery_tag v)
  + e_size (c_E (option_C u32_C)) (transfer_message_format v)
  + e_size (c_E (option_C bool_C)) (transfer_settled v)
  + e_size (c_E bool_C) (transfer_more v)
  + e_size (c_E (option_C receiver_settle_mode_C)) (transfer_rcv_settle_mode v)
  + e_size (c_E (option_C delivery_state_C)) (transfer_state v)
  + e_size (c_E bool_C) (transfer_resume v)
  + e_size (c_E bool_C) (transfer_aborted v)
  + e_size (c_E bool_C) (transfer_batchable v).
Definition transfer_size (v : transfer_t) : Z :=
  composite_size (transfer_content_size v)
  + match transfer_body_f v with Some b => transfer_body_size b | None => 0 end.
Definition transfer_enc (v : transfer_t) : list wop :=
  composite_header 20 11 (transfer_content_size v)
  ++ e_enc (c_E u32_C) (transfer_handle v)
  ++ e_enc (c_E (option_C u32_C)) (transfer_delivery_id v)
  ++ e_enc (c_E (option_C bin_C)) (transfer_delivery_tag v)
  ++ e_enc (c_E (option_C u32_C)) (transfer_message_format v)
  ++ e_enc (c_E (option_C bool_C)) (transfer_settled v)
  ++ e_enc (c_E bool_C) (transfer_more v)
  ++ e_enc (c_E (option_C receiver_settle_mode_C)) (transfer_rcv_settle_mode v)
  ++ e_enc (c_E (option_C delivery_state_C)) (transfer_state v)
  ++ e_enc (c_E bool_C) (transfer_resume v)
  ++ e_enc (c_E bool_C) (transfer_aborted v)
  ++ e_enc (c_E bool_C) (transfer_batchable v)
  ++ match transfer_body_f v with Some b => transfer_body_enc b | None => [] end.

(** [DecodeFormatted for Transfer]: lines 2436-2450; [Encode for Transfer]: lines 2451-2458. *)
Definition transfer_dec : dec transfer_t := composite_dec 20 "amqp:transfer:list" decode_transfer_inner.
Definition transfer_C : codec transfer_t := MkCodec (MkEnc transfer_size transfer_enc) transfer_dec.

(** ** [Frame]: definitions.rs lines 10-21 *)
Inductive frame :=
| FR_Open (v : open_t)
| FR_Begin (v : begin_t)
| FR_Attach (v : attach_t)
| FR_Flow (v : flow_t)
| FR_Transfer (v : transfer_t)
| FR_Disposition (v : disposition_t)
| FR_Detach (v : detach_t)
| FR_End (v : end_t)
| FR_Close (v : close_t)
| FR_Empty.

(** [Decode for Frame]: lines 38-99. The descriptor selects the inner decoder. *)
Definition frame_select (md : mode) (d : descriptor) (inp : bytes) : res (bytes * frame) :=
  match d with
  | DUlong c =>
    if c =? 16 then map_res FR_Open (decode_open_inner md inp)
    else if c =? 17 then map_res FR_Begin (decode_begin_inner md inp)
    else if c =? 18 then map_res FR_Attach (decode_attach_inner md inp)
    else if c =? 19 then map_res FR_Flow (decode_flow_inner md inp)
    else if c =? 20 then map_res FR_Transfer (decode_transfer_inner md inp)
    else if c =? 21 then map_res FR_Disposition (decode_disposition_inner md inp)
    else if c =? 22 then map_res FR_Detach (decode_detach_inner md inp)
    else if c =? 23 then map_res FR_End (decode_end_inner md inp)
    else if c =? 24 then map_res FR_Close (decode_close_inner md inp)
    else Err (EInvalidDescriptor d)
  | DSymbol a =>
    if sym_is a "amqp:open:list" then map_res FR_Open (decode_open_inner md inp)
    else if sym_is a "amqp:begin:list" then map_res FR_Begin (decode_begin_inner md inp)
    else if sym_is a "amqp:attach:list" then map_res FR_Attach (decode_attach_inner md inp)
    else if sym_is a "amqp:flow:list" then map_res FR_Flow (decode_flow_inner md inp)
    else if sym_is a "amqp:transfer:list" then map_res FR_Transfer (decode_transfer_inner md inp)
    else if sym_is a "amqp:disposition:list" then map_res FR_Disposition (decode_disposition_inner md inp)
    else if sym_is a "amqp:detach:list" then map_res FR_Detach (decode_detach_inner md inp)
    else if sym_is a "amqp:end:list" then map_res FR_End (decode_end_inner md inp)
    else if sym_is a "amqp:close:list" then map_res FR_Close (decode_close_inner md inp)
    else Err (EInvalidDescriptor d)
  end.
Definition frame_decode (md : mode) (inp : bytes) : res (bytes * frame) :=
  match inp with
  | [] => Ok (inp, FR_Empty)
  | _ =>
    '(inp1, fmt) <- decode_format_code inp ;;
    _ <- validate_code fmt FC_DESCRIBED ;;
    '(inp2, d) <- decode descriptor_dec md inp1 ;;
    frame_select md d inp2
  end.

(** [Encode for Frame]: lines 100-129. *)
Definition frame_size (x : frame) : Z :=
  match x with
  | FR_Open v => open_size v
  | FR_Begin v => begin_size v
  | FR_Attach v => attach_size v
  | FR_Flow v => flow_size v
  | FR_Transfer v => transfer_size v
  | FR_Disposition v => disposition_size v
  | FR_Detach v => detach_size v
  | FR_End v => end_size v
  | FR_Close v => close_size v
  | FR_Empty => 0
  end.
Definition frame_enc (x : frame) : list wop :=
  match x with
  | FR_Open v => open_enc v
  | FR_Begin v => begin_enc v
  | FR_Attach v => attach_enc v
  | FR_Flow v => flow_enc v
  | FR_Transfer v => transfer_enc v
  | FR_Disposition v => disposition_enc v
  | FR_Detach v => detach_enc v
  | FR_End v => end_enc v
  | FR_Close v => close_enc v
  | FR_Empty => []
  end.

(** [HEADER_LEN], [FRAME_TYPE_AMQP], [FRAME_TYPE_SASL]: framing.rs lines 4-8; [WORD_LEN]: encode.rs line 718. *)
Definition HEADER_LEN := 8.
Definition FRAME_TYPE_AMQP := 0x00.
Definition FRAME_TYPE_SASL := 0x01.
Definition WORD_LEN := 4.

(** [AmqpFrame]: framing.rs lines 10-39; [SaslFrame]: lines 41-50. *)
Record amqp_frame := MkAmqpFrame { af_channel_id : Z; af_performative : frame }.
Record sasl_frame := MkSaslFrame { sf_body : sasl_frame_body }.

(** [decode_frame_header]: decode.rs lines 479-499. *)
Definition decode_frame_header (inp : bytes) (expected_frame_type : Z) : res (bytes * Z) :=
  _ <- check_len inp 4 ;;
  match inp with
  | doff :: frame_type :: rest =>
    if negb (frame_type =? expected_frame_type) then Err (EUnexpectedFrameType frame_type)
    else
      let channel_id := be_val (ztake 2 rest) in
      let doff := doff * 4 in
      if doff <? HEADER_LEN then Err EInvalidSize
      else
        let ext_header_len := doff - HEADER_LEN in
        _ <- check_len inp (ext_header_len + 4) ;;
        Ok (zdrop (ext_header_len + 4) inp, channel_id)
  | _ => Panic PSlice
  end.

(** [Decode for AmqpFrame]: decode.rs lines 463-469. *)
Definition amqp_frame_decode (md : mode) (inp : bytes) : res (bytes * amqp_frame) :=
  '(inp1, channel_id) <- decode_frame_header inp FRAME_TYPE_AMQP ;;
  '(inp2, performative) <- frame_decode md inp1 ;;
  Ok (inp2, MkAmqpFrame channel_id performative).
(** [Decode for SaslFrame]: decode.rs lines 471-477. *)
Definition sasl_frame_decode (md : mode) (inp : bytes) : res (bytes * sasl_frame) :=
  '(inp1, _) <- decode_frame_header inp FRAME_TYPE_SASL ;;
  '(inp2, body) <- decode sasl_frame_body_dec md inp1 ;;
  Ok (inp2, MkSaslFrame body).

(** [Encode for AmqpFrame]: encode.rs lines 720-733. *)
Definition amqp_frame_size (f : amqp_frame) : Z := HEADER_LEN + frame_size (af_performative f).
Definition amqp_frame_enc (f : amqp_frame) : list wop :=
  let doff := HEADER_LEN / WORD_LEN in
  [put_u32_be (amqp_frame_size f); put_u8 doff; put_u8 FRAME_TYPE_AMQP; put_u16_be (af_channel_id f)]
  ++ frame_enc (af_performative f).
(** [Encode for SaslFrame]: encode.rs lines 735-748. *)
Definition sasl_frame_size (f : sasl_frame) : Z := HEADER_LEN + sasl_frame_body_size (sf_body f).
Definition sasl_frame_enc (f : sasl_frame) : list wop :=
  let doff := HEADER_LEN / WORD_LEN in
  [put_u32_be (sasl_frame_size f); put_u8 doff; put_u8 FRAME_TYPE_SASL; put_u16_be 0]
  ++ sasl_frame_body_enc (sf_body f).
