(** Specification: the buffer of the receiving side (file RoomClaims). *)

From Coq Require Import String.
From Verif Require Import Io Utf8Spec Valid Wire TypeSpec CompositeSpec AllTypes CodecSpec MessageSpec FrameSpec StreamSpec Room.
Open Scope string_scope.
Open Scope list_scope.
Open Scope Z_scope.

(** The state without the room. *)
Definition contents (s : room_state) : stream_state :=
  match s with
  | RLive st b => SLive st (b_data b)
  | RDead => SDead
  end.

(** The amounts of room asked for and the bodies handed to the decoder of frames, in order. *)
Fixpoint room_asked (l : list note) : list Z :=
  match l with
  | [] => []
  | Asked n :: r => n :: room_asked r
  | Decoded _ :: r => room_asked r
  end.
Fixpoint handed (l : list note) : list bytes :=
  match l with
  | [] => []
  | Asked _ :: r => handed r
  | Decoded b :: r => b :: handed r
  end.

(** The bytes a frame with this body takes on the stream: its length, which counts itself, and the body. *)
Definition with_length (body : bytes) : bytes := be4 (4 + zlen body) ++ body.

(** What a live state holds: less than a header, or less than the rest of the frame whose length was read. *)
Definition holds_little (s : stream_state) : Prop :=
  match s with
  | SLive FrameHeader src => zlen src < 8
  | SLive (Frame n) src => zlen src < n
  | SDead => True
  end.
