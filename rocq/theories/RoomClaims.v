(** The claim about the buffer of the receiving side, C78 of properties.jsonl.  The vocabulary is in RoomSpec; the codec with
    what it asks for and what it has decoded is in Room. *)

From Coq Require Import String.
From Verif Require Import Reserve ReserveSpec Io Utf8Spec Valid Wire TypeSpec CompositeSpec AllTypes CodecSpec MessageSpec FrameSpec StreamSpec
  Room RoomSpec RoomFacts.
Open Scope string_scope.
Open Scope list_scope.
Open Scope Z_scope.

(** ** C78: the room in the buffer does not matter for what is received. *)
Theorem C78_same : forall T (D : mode -> bytes -> res (bytes * T)) slack cap md chunks,
  let '(s, evs, _) := room_feed_all D slack md (room_new cap) chunks in feed_all D md stream_new chunks = (contents s, evs).
Proof. exact (@room_same). Qed.
Print Assumptions C78_same.

(** Whatever lengths are announced, room is asked for at most once for each frame and 32768 bytes at a time. *)
Theorem C78_asks : forall T (D : mode -> bytes -> res (bytes * T)) slack cap md chunks s evs notes,
  room_feed_all D slack md (room_new cap) chunks = (s, evs, notes) ->
  Forall (fun n => n = 32768) (room_asked notes) /\ (length (room_asked notes) <= length (handed notes) + 1)%nat.
Proof. exact (@room_asks). Qed.
Print Assumptions C78_asks.
(** The decoder of frames sees each byte of the stream at most once, and only as part of the body of a complete frame; so the
    work for a stream is within its length, however it arrives. *)
Theorem C78_decoded : forall T (D : mode -> bytes -> res (bytes * T)) slack cap md chunks s evs notes,
  bytes_ok (concat chunks) -> zlen (concat chunks) < 2 ^ 63 -> room_feed_all D slack md (room_new cap) chunks = (s, evs, notes) ->
  exists rest, concat chunks = concat (map with_length (handed notes)) ++ rest.
Proof. exact (@room_decoded). Qed.
Print Assumptions C78_decoded.
Theorem C78_work : forall R slack cap md chunks s evs notes, frame_runs wide_element frame_alts R ->
  bytes_ok (concat chunks) -> zlen (concat chunks) < 2 ^ 63 -> room_feed_all amqp_frame_decode slack md (room_new cap) chunks = (s, evs, notes) ->
  zsum (fun body => begun (amqp_frame_run R md body)) (handed notes) <= zlen (concat chunks).
Proof. exact room_work. Qed.
Print Assumptions C78_work.
Theorem C78_sasl_work : forall D slack cap md chunks s evs notes, runs wide_element sasl_frame_body_S D ->
  bytes_ok (concat chunks) -> zlen (concat chunks) < 2 ^ 63 -> room_feed_all sasl_frame_decode slack md (room_new cap) chunks = (s, evs, notes) ->
  zsum (fun body => begun (sasl_frame_run D md body)) (handed notes) <= zlen (concat chunks).
Proof. exact room_work_sasl. Qed.
Print Assumptions C78_sasl_work.
(** A close and the first bytes of a frame of 64 KiB, in three pieces. *)
Example C78_example : let chunks := [[0; 0; 0; 12; 2; 0; 0]; [0; 0x00; 0x53; 0x18; 0x45; 0; 1; 0; 0; 2]; [0; 0; 0; 0x00]] in
  bytes_ok (concat chunks) /\ exists b, room_feed_all amqp_frame_decode 0 Debug (room_new 0) chunks =
    (RLive (Frame 65532) b, [EvItem (MkAmqpFrame 0 (FR_Close (MkClose None)))], [Decoded [2; 0; 0; 0; 0x00; 0x53; 0x18; 0x45]; Asked 32768]) /\
    b_data b = [2; 0; 0; 0; 0x00].
Proof.
  cbv zeta. split; [repeat constructor; vm_compute; congruence|]. eexists. split; vm_compute; reflexivity.
Qed.
Example C78_work_example : exists R, frame_runs wide_element frame_alts R /\ begun (amqp_frame_run R Debug [2; 0; 0; 0; 0x00; 0x53; 0x18; 0x45]) = 2.
Proof. exact frame_work_example. Qed.

(** Between calls the buffer holds less than one frame. *)
Theorem C78_holds : forall T (D : mode -> bytes -> res (bytes * T)) md chunks, bytes_ok (concat chunks) -> zlen (concat chunks) < 2 ^ 63 ->
  holds_little (fst (feed_all D md stream_new chunks)).
Proof. exact (@stream_holds). Qed.
Print Assumptions C78_holds.
(** But there is no limit to that: of a frame of any length all bytes are kept until the last one arrives. *)
Theorem C78_unlimited : forall T (D : mode -> bytes -> res (bytes * T)) md n part chunks, 4 <= zlen part -> 4 + zlen part < n < 2 ^ 32 ->
  concat chunks = be4 n ++ part -> feed_all D md stream_new chunks = (SLive (Frame (n - 4)) part, []).
Proof. exact (@unlimited). Qed.
Print Assumptions C78_unlimited.
Example C78_unlimited_example : 4 <= zlen [2; 0; 0; 0; 0x00] /\ 4 + zlen [2; 0; 0; 0; 0x00] < 2 ^ 32 - 1 < 2 ^ 32 /\
  feed_all amqp_frame_decode Debug stream_new [[255; 255; 255; 255]; [2; 0; 0; 0; 0x00]] = (SLive (Frame (2 ^ 32 - 5)) [2; 0; 0; 0; 0x00], []).
Proof. repeat split; vm_compute; congruence. Qed.

(** After the length of an incomplete frame was read there is room for 4096 bytes, for 8 more than the frame, or for 32768. *)
Theorem C78_room : forall T (D : mode -> bytes -> res (bytes * T)) slack md cap n part st b notes, 0 <= slack -> zlen (be4 n ++ part) <= cap ->
  4 <= zlen part -> 4 + zlen part < n < 2 ^ 32 ->
  room_decode D slack md FrameHeader (MkBuf cap (be4 n ++ part)) = (st, b, DNone, notes) ->
  st = Frame (n - 4) /\ b_data b = part /\ Z.min (Z.max 4096 (n + 8)) 32768 <= remaining_mut b.
Proof. exact (@room_after_header). Qed.
Print Assumptions C78_room.
(** So the rest of the frame fits if it is of 32768 bytes or less. *)
Theorem C78_fits : forall T (D : mode -> bytes -> res (bytes * T)) slack md cap n part st b notes, 0 <= slack -> zlen (be4 n ++ part) <= cap ->
  4 <= zlen part -> 4 + zlen part < n -> n <= 32772 + zlen part -> n < 2 ^ 32 ->
  room_decode D slack md FrameHeader (MkBuf cap (be4 n ++ part)) = (st, b, DNone, notes) -> (n - 4) - zlen (b_data b) <= remaining_mut b.
Proof. exact (@room_fits). Qed.
Print Assumptions C78_fits.
(** The comment in the code ("extend receiving buffer to fit the whole frame") does not hold for larger ones. *)
Theorem C78_fits_refuted : exists n part, 4 <= zlen part /\ 4 + zlen part < n < 2 ^ 32 /\ forall md,
  exists b, room_decode amqp_frame_decode 0 md FrameHeader (MkBuf 8 (be4 n ++ part)) = (Frame (n - 4), b, DNone, [Asked 32768]) /\
    remaining_mut b < (n - 4) - zlen (b_data b).
Proof.
  exists 65536, [2; 0; 0; 0]. split; [vm_compute; congruence|]. split; [vm_compute; split; reflexivity|]. intros md.
  destruct (short_of_room md) as (b & E & F & G). exists b. split; [exact E|]. rewrite F, G. vm_compute. reflexivity.
Qed.
Print Assumptions C78_fits_refuted.
Example C78_fits_example : exists b, room_decode amqp_frame_decode 0 Debug FrameHeader (MkBuf 8 (be4 30000 ++ [2; 0; 0; 0])) = (Frame 29996, b, DNone, [Asked 32768]) /\
  remaining_mut b = 32768.
Proof. eexists. split; vm_compute; reflexivity. Qed.
