(** Specification: exactly which bytes the crate reads as a performative, a frame, a message and a stream of frames, and as
    what (file FrameGrammarClaims).

    As in GrammarSpec, [G md v bs] says that exactly the bytes [bs] are read as [v] by a build with or without overflow checks
    ([md]). *)

From Coq Require Import String.
From Verif Require Import Io Utf8Spec Valid Wire TypeSpec CompositeSpec AllTypes CodecSpec MessageSpec FrameSpec StreamSpec GrammarSpec.
Open Scope string_scope.
Open Scope list_scope.
Open Scope Z_scope.

(** ** Performatives: after the descriptor *)
(** A transfer is a list of fields, what is left over inside the size of the list ([junk]), and the payload: everything else. *)
Inductive performative_grammar : forall {T}, dspec T -> (mode -> T -> bytes -> Prop) -> Prop :=
| pg_composite K G : In K all_composites -> body_grammar (composite_D K) G -> performative_grammar (composite_D K) G
| pg_transfer F : field_grammar transfer_table F ->
    performative_grammar transfer_D (fun md v bs => exists n hdr content junk payload,
      list_header md n (zlen (content ++ junk)) hdr /\ F md n (transfer_to v) content /\
      bs = hdr ++ content ++ junk ++ payload /\ transfer_body_f v = received_payload payload).

(** One of several performatives, each after its descriptor: the number or the name. *)
Inductive performatives_grammar : list (alternative frame) -> (mode -> frame -> bytes -> Prop) -> Prop :=
| pgs_nil : performatives_grammar [] (fun md f bs => False)
| pgs_cons a r GA GR : performative_grammar (a_D a) GA -> performatives_grammar r GR ->
    performatives_grammar (a :: r) (fun md f bs =>
      (exists x label body, f = a_inj a x /\ wire_label (d_code (a_D a)) (d_name (a_D a)) label /\ GA md x body /\
         bs = 0x00 :: label ++ body) \/
      GR md f bs).

(** What a frame carries: a performative, or nothing (2.3.1: an empty frame keeps a connection alive). *)
Inductive frame_grammar : (mode -> frame -> bytes -> Prop) -> Prop :=
| fgr G : performatives_grammar frame_alts G ->
    frame_grammar (fun md f bs => G md f bs \/ (f = FR_Empty /\ bs = [])).

(** ** Frames, after the length: data offset, type, channel, extended header, and what they carry *)
Definition amqp_grammar (G : mode -> frame -> bytes -> Prop) (md : mode) (f : amqp_frame) (bs : bytes) : Prop :=
  exists ext hdr body, wire_header 0 (af_channel_id f) ext hdr /\ G md (af_performative f) body /\ bs = hdr ++ body.
(** The two bytes in the place of the channel are not looked at in a SASL frame. *)
Definition sasl_grammar (G : mode -> sasl_frame_body -> bytes -> Prop) (md : mode) (f : sasl_frame) (bs : bytes) : Prop :=
  exists unused ext hdr body, wire_header 1 unused ext hdr /\ G md (sf_body f) body /\ bs = hdr ++ body.

(** A frame on a stream, which its length comes before. *)
Definition on_stream {T} (G : mode -> T -> bytes -> Prop) (md : mode) (x : T) (bs : bytes) : Prop :=
  exists body, framed body bs /\ G md x body.

(** ** Streams: what a decoder [D] of frames makes of the bytes received so far *)
Inductive stream_reading {T} (D : mode -> bytes -> res (bytes * T)) (md : mode) : bytes -> stream_state -> list (event T) -> Prop :=
(** fewer than eight bytes wait *)
| SR_wait src : zlen src < 8 -> stream_reading D md src (SLive FrameHeader src) []
(** part of a frame: the length is taken off *)
| SR_part n part : 4 <= zlen part -> 4 + zlen part < n < 2 ^ 32 ->
    stream_reading D md (be4 n ++ part) (SLive (Frame (n - 4)) part) []
(** a frame, and then the rest *)
| SR_frame x body bs rest s evs : framed body bs -> 8 <= zlen (bs ++ rest) -> D md body = Ok ([], x) ->
    stream_reading D md rest s evs -> stream_reading D md (bs ++ rest) s (EvItem x :: evs)
(** a frame whose body is longer than what it carries, or not understood: the end of the stream *)
| SR_left x body bs rest l : framed body bs -> 8 <= zlen (bs ++ rest) -> D md body = Ok (l, x) -> l <> [] ->
    stream_reading D md (bs ++ rest) SDead [EvErr CUnparsedBytesLeft]
| SR_bad body bs rest e : framed body bs -> 8 <= zlen (bs ++ rest) -> D md body = Err e ->
    stream_reading D md (bs ++ rest) SDead [EvErr (CParse e)]
| SR_panic body bs rest p : framed body bs -> 8 <= zlen (bs ++ rest) -> D md body = Panic p ->
    stream_reading D md (bs ++ rest) SDead [EvPanic p]
(** a length that does not even count itself: a panic, or a frame of nearly 2^64 bytes that never comes to its end *)
| SR_tiny_checked n rest : md = Debug -> 0 <= n < 4 -> 4 <= zlen rest -> stream_reading D md (be4 n ++ rest) SDead [EvPanic PArith]
| SR_tiny_unchecked n rest : md = Release -> 0 <= n < 4 -> 4 <= zlen rest ->
    stream_reading D md (be4 n ++ rest) (SLive (Frame (2 ^ 64 + n - 4)) rest) [].
