(** Model of /repo/src/io.rs.

    A codec value is its decode state; the source buffer is a byte list (its capacity only matters for performance on
    the decode side and is not modelled); the destination buffer is a [buf]. *)

From Coq Require Import String.
From Verif Require Export Frames.
Open Scope string_scope.
Open Scope list_scope.
Open Scope Z_scope.

(** [SIZE_LOW_WM], [SIZE_HIGH_WM]: io.rs lines 11-12. *)
Definition SIZE_LOW_WM := 4096.
Definition SIZE_HIGH_WM := 32768.

(** [DecodeState]: io.rs lines 19-23. *)
Inductive decode_state := FrameHeader | Frame (size : Z).

(** [AmqpCodecError]: /repo/src/errors.rs lines 28-35 ([Io] never arises in the codec). *)
Inductive cerr := CParse (e : perr) | CUnparsedBytesLeft.

(** What [decode] returns. *)
Inductive dout (T : Type) :=
| DNone
| DItem (x : T)
| DErr (e : cerr)
| DPanic (p : panic)
| DOof.
Arguments DNone {T}. Arguments DItem {T} x. Arguments DErr {T} e. Arguments DPanic {T} p. Arguments DOof {T}.

Section Codec.
  Context {T : Type} (T_decode : mode -> bytes -> res (bytes * T)).

  (** The [DecodeState::Frame(size)] arm: io.rs lines 64-78.  The bytes of the frame are removed from the buffer
      before [T::decode] is called; the state is reset only on success. *)
  Definition decode_frame_arm (md : mode) (size : Z) (src : bytes) : decode_state * bytes * dout T :=
    if zlen src <? size then (Frame size, src, DNone)
    else
      let frame_buf := ztake size src in
      let src' := zdrop size src in
      match T_decode md frame_buf with
      | Ok (remainder, x) =>
        match remainder with
        | [] => (FrameHeader, src', DItem x)
        | _ => (Frame size, src', DErr CUnparsedBytesLeft)
        end
      | Err e => (Frame size, src', DErr (CParse e))
      | Panic p => (Frame size, src', DPanic p)
      | Oof => (Frame size, src', DOof)
      end.

  (** [AmqpCodec::decode]: io.rs lines 44-82. The loop runs at most twice. *)
  Definition amqp_codec_decode (md : mode) (st : decode_state) (src : bytes) : decode_state * bytes * dout T :=
    match st with
    | FrameHeader =>
      let len := zlen src in
      if len <? HEADER_LEN then (FrameHeader, src, DNone)
      else
        let size := be_val (ztake 4 src) in
        match usub md 64 size 4 with
        | Ok n =>
          let src1 := zdrop 4 src in
          if len <? size then (Frame n, src1, DNone)
          else decode_frame_arm md n src1
        | _ => (FrameHeader, src, DPanic PArith)
        end
    | Frame size => decode_frame_arm md size src
    end.
End Codec.

(** [AmqpCodec::new] / [default]: io.rs lines 25-38. *)
Definition amqp_codec_new : decode_state := FrameHeader.

(** [AmqpCodec::encode]: io.rs lines 85-99, given the item's size and writes. *)
Definition amqp_codec_encode (slack : Z) (size : Z) (ops : list wop) (dst : buf) : option buf :=
  let need := Z.max SIZE_LOW_WM size in
  let dst1 := if remaining_mut dst <? need then reserve slack (Z.max need SIZE_HIGH_WM) dst else dst in
  run_ops slack ops dst1.

(** ** Protocol header: io.rs lines 101-145 *)

(** [ProtocolId]: /repo/src/protocol/mod.rs lines 32-37. *)
Inductive protocol_id := PAmqp | PAmqpTls | PAmqpSasl.
Definition protocol_id_u8 (p : protocol_id) : Z :=
  match p with PAmqp => 0 | PAmqpTls => 2 | PAmqpSasl => 3 end.

(** [ProtocolIdError]: /repo/src/errors.rs, the variants the codec returns. *)
Inductive pid_error := PIInvalidHeader | PIIncompatible | PIUnknown.
Inductive pid_out := PNone | PItem (p : protocol_id) | PErr (e : pid_error).

Definition PROTOCOL_HEADER_LEN := 8.
Definition PROTOCOL_HEADER_PREFIX : bytes := s2b "AMQP".
Definition PROTOCOL_VERSION : bytes := [1; 0; 0].

(** [ProtocolIdCodec::decode]: io.rs lines 112-131: the remaining buffer and the result. *)
Definition protocol_id_decode (src : bytes) : bytes * pid_out :=
  if zlen src <? PROTOCOL_HEADER_LEN then (src, PNone)
  else
    let h := ztake 8 src in
    let src' := zdrop 8 src in
    (src',
     if negb (bytes_eqb (ztake 4 h) PROTOCOL_HEADER_PREFIX) then PErr PIInvalidHeader
     else if negb (bytes_eqb (zdrop 5 h) PROTOCOL_VERSION) then PErr PIIncompatible
     else
       let protocol_id := nth 4 h 0 in
       if protocol_id =? 0 then PItem PAmqp
       else if protocol_id =? 2 then PItem PAmqpTls
       else if protocol_id =? 3 then PItem PAmqpSasl
       else PErr PIUnknown).

(** [ProtocolIdCodec::encode]: io.rs lines 134-144. *)
Definition protocol_id_ops (item : protocol_id) : list wop :=
  [Put PROTOCOL_HEADER_PREFIX; put_u8 (protocol_id_u8 item); Put PROTOCOL_VERSION].
Definition protocol_id_encode (slack : Z) (item : protocol_id) (dst : buf) : option buf :=
  run_ops slack (protocol_id_ops item) (reserve slack PROTOCOL_HEADER_LEN dst).

(** ** The reading loop (not in /repo: the contract of tokio's [FramedRead])

    Received bytes are appended to the buffer, then [decode] is called until it asks for more or fails.  After a failure
    the stream is dead. *)
Inductive stream_state := SLive (st : decode_state) (buf : bytes) | SDead.
Inductive event (T : Type) := EvItem (x : T) | EvErr (e : cerr) | EvPanic (p : panic) | EvOof.
Arguments EvItem {T} x. Arguments EvErr {T} e. Arguments EvPanic {T} p. Arguments EvOof {T}.

Section Stream.
  Context {T : Type} (T_decode : mode -> bytes -> res (bytes * T)).

  (** Call [decode] until [None]; [fuel] bounds the number of items. *)
  Fixpoint drain (fuel : nat) (md : mode) (st : decode_state) (src : bytes) : stream_state * list (event T) :=
    match fuel with
    | O => (SDead, [EvOof])
    | S f =>
      match amqp_codec_decode T_decode md st src with
      | (st', src', DNone) => (SLive st' src', [])
      | (st', src', DItem x) => let (s, evs) := drain f md st' src' in (s, EvItem x :: evs)
      | (_, _, DErr e) => (SDead, [EvErr e])
      | (_, _, DPanic p) => (SDead, [EvPanic p])
      | (_, _, DOof) => (SDead, [EvOof])
      end
    end.

  Definition feed (md : mode) (s : stream_state) (chunk : bytes) : stream_state * list (event T) :=
    match s with
    | SLive st src => drain (2 + length (src ++ chunk)) md st (src ++ chunk)
    | SDead => (SDead, [])
    end.

  Fixpoint feed_all (md : mode) (s : stream_state) (chunks : list bytes) : stream_state * list (event T) :=
    match chunks with
    | [] => (s, [])
    | c :: r =>
      let (s1, e1) := feed md s c in
      let (s2, e2) := feed_all md s1 r in
      (s2, e1 ++ e2)
    end.
End Stream.

Definition stream_new : stream_state := SLive amqp_codec_new [].
