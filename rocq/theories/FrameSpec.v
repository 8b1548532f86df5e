(** Specification for frames (parts 2.3 and 2.7 of the AMQP 1.0 standard): performatives, the transfer with its payload, frame
    headers. *)

From Coq Require Import String.
From Verif Require Import Io Utf8Spec Valid Wire TypeSpec CompositeSpec AllTypes CodecSpec MessageSpec.
Open Scope string_scope.
Open Scope list_scope.
Open Scope Z_scope.

Local Notation "f $ x" := (f x) (at level 60, right associativity, only parsing).

(** ** Transfer (2.7.5): a composite followed by a payload, which takes the rest of the frame *)
Definition transfer_table : fields _ :=
  FReq "handle" u32_S $
  FOpt "delivery_id" u32_S $
  FOpt "delivery_tag" bin_S $
  FOpt "message_format" u32_S $
  FOpt "settled" bool_S $
  FDef "more" bool_S false $
  FOpt "rcv_settle_mode" receiver_settle_mode_S $
  FOpt "state" delivery_state_S $
  FDef "resume" bool_S false $
  FDef "aborted" bool_S false $
  FDef "batchable" bool_S false FNil.
Definition transfer_row : Type := Z * (option Z * (option bytes * (option Z * (option bool * (bool * (option receiver_settle_mode *
  (option delivery_state * (bool * (bool * (bool * unit)))))))))).
Definition transfer_to (v : transfer_t) : transfer_row :=
  (transfer_handle v, (transfer_delivery_id v, (transfer_delivery_tag v, (transfer_message_format v, (transfer_settled v,
  (transfer_more v, (transfer_rcv_settle_mode v, (transfer_state v, (transfer_resume v, (transfer_aborted v,
  (transfer_batchable v, tt))))))))))).
Definition transfer_of (r : transfer_row) (body : option transfer_body) : transfer_t :=
  let '(a, (b, (c, (d, (e, (f, (g, (h, (i, (j, (k, _))))))))))) := r in MkTransfer a b c d e f g h i j k body.

(** The payload of a transfer, and the body that stands for a payload received. *)
Definition transfer_payload (v : transfer_t) : bytes := match transfer_body_f v with Some t => payload t | None => [] end.
Definition received_payload (p : bytes) : option transfer_body := match p with [] => None | _ => Some (TBData p) end.

Definition transfer_D : dspec transfer_t :=
  MkD 0x14 "amqp:transfer:list" (MkEnc transfer_size transfer_enc) decode_transfer_inner
    (fun v => each_field (@s_valid) transfer_table (transfer_to v) /\ opt_prop body_valid (transfer_body_f v))
    (fun v bs => exists encs fields payload, wire_fields transfer_table (transfer_to v) encs /\
       wire_list (zlen encs) (concat encs) fields /\ bs = fields ++ payload /\ transfer_body_f v = received_payload payload)
    (fun v => transfer_of (canon_fields transfer_table (transfer_to v)) (received_payload (transfer_payload v)))
    (fun v => each_field (@s_encodable) transfer_table (transfer_to v))
    (fun v => each_field (@s_decodable) transfer_table (transfer_to v)).

(** ** Performatives *)
Definition frame_alts : list (alternative frame) :=
  [MkAlt (composite_D open_K) FR_Open (fun v => match v with FR_Open x => Some x | _ => None end);
   MkAlt (composite_D begin_K) FR_Begin (fun v => match v with FR_Begin x => Some x | _ => None end);
   MkAlt (composite_D attach_K) FR_Attach (fun v => match v with FR_Attach x => Some x | _ => None end);
   MkAlt (composite_D flow_K) FR_Flow (fun v => match v with FR_Flow x => Some x | _ => None end);
   MkAlt transfer_D FR_Transfer (fun v => match v with FR_Transfer x => Some x | _ => None end);
   MkAlt (composite_D disposition_K) FR_Disposition (fun v => match v with FR_Disposition x => Some x | _ => None end);
   MkAlt (composite_D detach_K) FR_Detach (fun v => match v with FR_Detach x => Some x | _ => None end);
   MkAlt (composite_D end_K) FR_End (fun v => match v with FR_End x => Some x | _ => None end);
   MkAlt (composite_D close_K) FR_Close (fun v => match v with FR_Close x => Some x | _ => None end)].

(** [Frame]: one of the performatives, or nothing at all. *)
Definition on_frame (P : forall X, dspec X -> X -> Prop) (f : frame) : Prop :=
  match f with FR_Empty => True | _ => the_alternative P frame_alts f end.
Definition frame_valid : frame -> Prop := on_frame (@d_valid).
Definition frame_encodable : frame -> Prop := on_frame (@d_encodable).
Definition frame_decodable : frame -> Prop := on_frame (@d_decodable).
Definition wire_frame (f : frame) (bs : bytes) : Prop :=
  match f with FR_Empty => bs = [] | _ => the_alternative (fun _ D x => wire_described D x bs) frame_alts f end.
Definition frame_canon : frame -> frame := canon_union frame_alts.
Definition frame_bytes (f : frame) : bytes := wbytes (frame_enc f).

(** A transfer takes all that follows, the empty frame is nothing; other performatives leave what follows. *)
Definition takes_rest (f : frame) : Prop := match f with FR_Transfer _ | FR_Empty => True | _ => False end.

(** The message a transfer carries: the memo of its size, and the header sections in it. *)
Definition frame_memo_ok (f : frame) : Prop :=
  match f with FR_Transfer v => opt_prop body_memo_ok (transfer_body_f v) | _ => True end.
Definition frame_headers (f : frame) : Z :=
  match f with FR_Transfer v => match transfer_body_f v with Some t => body_headers t | None => 0 end | _ => 0 end.

(** ** What can be sent and received *)
Definition frame_sendable (f : frame) : Prop :=
  frame_valid f /\ frame_memo_ok f /\ frame_headers f = 0 /\ frame_encodable f /\ HEADER_LEN + frame_size f < 2 ^ 32 /\
  frame_decodable (frame_canon f).
Definition sasl_sendable (b : sasl_frame_body) : Prop :=
  s_valid sasl_frame_body_S b /\ s_encodable sasl_frame_body_S b /\ HEADER_LEN + s_size sasl_frame_body_S b < 2 ^ 32 /\
  s_decodable sasl_frame_body_S (s_canon sasl_frame_body_S b).

(** A frame without its length: data offset, type, channel (2 bytes with no meaning for SASL), extended header, body. *)
Inductive wire_header (type : Z) : Z -> bytes -> bytes -> Prop :=
| WH doff channel ext : 2 <= doff < 256 -> 0 <= channel < 2 ^ 16 -> zlen ext = 4 * doff - 8 ->
    wire_header type channel ext (doff :: type :: be2 channel ++ ext).

(** What is wrong with a header, and the error that tells so: too short; of the wrong type; a data offset pointing into the
    header; an extended header that is not there. *)
Definition bad_header (type : Z) (bs : bytes) (e : perr) : Prop :=
  (zlen bs < 4 /\ e = EIncomplete (Some 4)) \/
  exists doff t rest, bs = doff :: t :: rest /\ 2 <= zlen rest /\
    ((t <> type /\ e = EUnexpectedFrameType t) \/
     (t = type /\ ((doff < 2 /\ e = EInvalidSize) \/
                   (2 <= doff /\ zlen rest < 4 * doff - 6 /\ e = EIncomplete (Some (4 * doff - 4)))))).
