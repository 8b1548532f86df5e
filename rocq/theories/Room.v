(** Model of the receiving side of /repo/src/io.rs again, with the room in the buffer: what [AmqpCodec::decode] asks the buffer
    for and what it hands to the decoder of frames.

    The buffer is a [buf] (Encode.v).  [split_to(n)] (bytes 0.4) gives the first [n] bytes away; the capacity that goes with them
    may be kept when the bytes are stored inline, so the room that is left does not shrink and may grow by [slack]. *)

From Coq Require Import String.
From Verif Require Import Io.
Open Scope string_scope.
Open Scope list_scope.
Open Scope Z_scope.

Definition split_to (slack : Z) (n : Z) (b : buf) : bytes * buf :=
  (ztake n (b_data b), MkBuf (b_cap b - n + slack) (zdrop n (b_data b))).

(** What the codec does besides returning: it asks for room, or has a frame decoded. *)
Inductive note := Asked (n : Z) | Decoded (body : bytes).

Inductive room_state := RLive (st : decode_state) (b : buf) | RDead.

Section Room.
  Context {T : Type} (T_decode : mode -> bytes -> res (bytes * T)) (slack : Z).

  (** io.rs lines 64-78. *)
  Definition room_frame_arm (md : mode) (size : Z) (src : buf) : decode_state * buf * dout T * list note :=
    if zlen (b_data src) <? size then (Frame size, src, DNone, [])
    else
      let (frame_buf, src') := split_to slack size src in
      match T_decode md frame_buf with
      | Ok (remainder, x) =>
        match remainder with
        | [] => (FrameHeader, src', DItem x, [Decoded frame_buf])
        | _ => (Frame size, src', DErr CUnparsedBytesLeft, [Decoded frame_buf])
        end
      | Err e => (Frame size, src', DErr (CParse e), [Decoded frame_buf])
      | Panic p => (Frame size, src', DPanic p, [Decoded frame_buf])
      | Oof => (Frame size, src', DOof, [Decoded frame_buf])
      end.

  (** io.rs lines 44-82. *)
  Definition room_decode (md : mode) (st : decode_state) (src : buf) : decode_state * buf * dout T * list note :=
    match st with
    | FrameHeader =>
      let len := zlen (b_data src) in
      if len <? HEADER_LEN then (FrameHeader, src, DNone, [])
      else
        let size := be_val (ztake 4 (b_data src)) in
        match usub md 64 size 4 with
        | Ok n =>
          let (_, src1) := split_to slack 4 src in
          if len <? size then
            if remaining_mut src1 <? Z.max SIZE_LOW_WM (size + HEADER_LEN)
            then (Frame n, reserve slack SIZE_HIGH_WM src1, DNone, [Asked SIZE_HIGH_WM])
            else (Frame n, src1, DNone, [])
          else room_frame_arm md n src1
        | _ => (FrameHeader, src, DPanic PArith, [])
        end
    | Frame size => room_frame_arm md size src
    end.

  (** The reading loop (not in /repo, see Io.v); room is made for what arrives. *)
  Fixpoint room_drain (fuel : nat) (md : mode) (st : decode_state) (src : buf) : room_state * list (event T) * list note :=
    match fuel with
    | O => (RDead, [EvOof], [])
    | S f =>
      match room_decode md st src with
      | (st', src', DNone, notes) => (RLive st' src', [], notes)
      | (st', src', DItem x, notes) => let '(s, evs, more) := room_drain f md st' src' in (s, EvItem x :: evs, notes ++ more)
      | (_, _, DErr e, notes) => (RDead, [EvErr e], notes)
      | (_, _, DPanic p, notes) => (RDead, [EvPanic p], notes)
      | (_, _, DOof, notes) => (RDead, [EvOof], notes)
      end
    end.
  Definition room_feed (md : mode) (s : room_state) (chunk : bytes) : room_state * list (event T) * list note :=
    match s with
    | RLive st src => room_drain (2 + length (b_data src ++ chunk)) md st (append (reserve slack (zlen chunk) src) chunk)
    | RDead => (RDead, [], [])
    end.
  Fixpoint room_feed_all (md : mode) (s : room_state) (chunks : list bytes) : room_state * list (event T) * list note :=
    match chunks with
    | [] => (s, [], [])
    | c :: r =>
      let '(s1, e1, n1) := room_feed md s c in
      let '(s2, e2, n2) := room_feed_all md s1 r in
      (s2, e1 ++ e2, n1 ++ n2)
    end.
End Room.

(** A new codec with an empty buffer of some capacity. *)
Definition room_new (cap : Z) : room_state := RLive amqp_codec_new (MkBuf cap []).
