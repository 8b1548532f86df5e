(** The claims C33 to C39 as theorems: streams of frames, the protocol header, output buffers.  The vocabulary is in StreamSpec.v. *)

From Coq Require Import String.
From Verif Require Import Io Utf8Spec Valid Wire TypeSpec CompositeSpec AllTypes CodecSpec MessageSpec FrameSpec StreamSpec FramingFacts StreamFacts.
Open Scope string_scope.
Open Scope list_scope.
Open Scope Z_scope.

(** Frames for the examples. *)
Definition a_begin : amqp_frame := MkAmqpFrame 7 (FR_Begin (MkBegin None 1 2048 2048 255 None None None)).
Definition a_transfer_frame : amqp_frame :=
  MkAmqpFrame 7 (FR_Transfer (MkTransfer 3 (Some 300) (Some [1; 2]) None (Some true) false None (Some (DS_Accepted MkAccepted)) false false true (Some (TBData [9; 8; 7])))).
Definition a_heartbeat : amqp_frame := MkAmqpFrame 0 FR_Empty.

(** ** C33 *)
(** Any frames written one after the other, each with any extra room from the allocator, and read in any pieces. *)
Theorem C33_frames_received : forall md items b, Forall (fun i => 0 <= fst i /\ amqp_sendable (snd i)) items -> buf_ok b -> b_data b = [] ->
  exists b', send_all amqp_frame_size amqp_frame_enc items b = Some b' /\
    forall chunks, concat chunks = b_data b' ->
      feed_all amqp_frame_decode md stream_new chunks = (stream_new, map (fun i => EvItem (amqp_received (snd i))) items).
Proof. exact amqp_stream. Qed.
Print Assumptions C33_frames_received.
Theorem C33_sasl_frames_received : forall md items b, Forall (fun i => 0 <= fst i /\ sasl_sendable (sf_body (snd i))) items -> buf_ok b -> b_data b = [] ->
  exists b', send_all sasl_frame_size sasl_frame_enc items b = Some b' /\
    forall chunks, concat chunks = b_data b' ->
      feed_all sasl_frame_decode md stream_new chunks = (stream_new, map (fun i => EvItem (sasl_received (snd i))) items).
Proof. exact sasl_stream. Qed.
Print Assumptions C33_sasl_frames_received.
(** The same for any frames a decoder [D] accepts, however they were encoded. *)
Theorem C33_any_frames : forall T (D : mode -> bytes -> res (bytes * T)) md xs bss chunks, Forall2 (frame_of D md) xs bss -> concat chunks = concat bss ->
  feed_all D md stream_new chunks = (stream_new, map EvItem xs).
Proof. exact (@frames_received). Qed.
Print Assumptions C33_any_frames.
(** While the next frame is not complete, exactly the frames before it have been delivered. *)
Theorem C33_prompt : forall T (D : mode -> bytes -> res (bytes * T)) md xs bss x bs part more chunks,
  Forall2 (frame_of D md) xs bss -> frame_of D md x bs -> bs = part ++ more -> more <> [] ->
  concat chunks = concat bss ++ part -> snd (feed_all D md stream_new chunks) = map EvItem xs.
Proof. exact (@frames_prompt). Qed.
Print Assumptions C33_prompt.
Example C33_example : Forall (fun i => 0 <= fst i /\ amqp_sendable (snd i)) [(0, a_begin); (64, a_transfer_frame); (0, a_heartbeat)] /\
  buf_ok (MkBuf 16 []) /\ map (fun f => amqp_received f) [a_begin; a_transfer_frame; a_heartbeat] = [a_begin; a_transfer_frame; a_heartbeat] /\
  exists b', send_all amqp_frame_size amqp_frame_enc [(0, a_begin); (64, a_transfer_frame); (0, a_heartbeat)] (MkBuf 16 []) = Some b' /\
    zlen (b_data b') = 81 /\
    feed_all amqp_frame_decode Release stream_new [firstn 5 (b_data b'); firstn 40 (skipn 5 (b_data b')); []; skipn 45 (b_data b')] =
      (stream_new, map EvItem [a_begin; a_transfer_frame; a_heartbeat]).
Proof.
  split.
  { repeat (apply Forall_cons; [|]); try apply Forall_nil; (split; [cbn; lia|]); (split; [cbn; lia|]);
      (split; [cbn; repeat split; try lia; repeat (apply Forall_cons; [unfold byte_ok; lia|]); apply Forall_nil|]);
      (split; [exact I|]); (split; [reflexivity|]); (split; [cbn; repeat split; try lia|]); (split; [vm_compute; reflexivity|]); cbn; repeat split; try lia. }
  split; [vm_compute; discriminate|]. split; [reflexivity|]. eexists. split; [vm_compute; reflexivity|]. split; vm_compute; reflexivity.
Qed.

(** ** C34 *)
(** Frames, first error and final state depend only on the bytes. *)
Theorem C34_chunks : forall T (D : mode -> bytes -> res (bytes * T)) md chunks, feed_all D md stream_new chunks = feed D md stream_new (concat chunks).
Proof. exact (@feed_all_concat). Qed.
Print Assumptions C34_chunks.
Theorem C34_two_chunkings : forall T (D : mode -> bytes -> res (bytes * T)) md a b, concat a = concat b ->
  feed_all D md stream_new a = feed_all D md stream_new b.
Proof. exact (@chunk_independent). Qed.
Print Assumptions C34_two_chunkings.
(** The reading loop ends by itself. *)
Theorem C34_loop_ends : forall T (D : mode -> bytes -> res (bytes * T)) md, (forall inp, D md inp <> Oof) ->
  forall chunks, ~ In EvOof (snd (feed_all D md stream_new chunks)).
Proof. exact (@no_oof). Qed.
Print Assumptions C34_loop_ends.
(** A good frame, then one with a bad type, read in two ways. *)
Example C34_example :
  feed_all amqp_frame_decode Debug stream_new [[0; 0; 0]; [12; 2; 0; 0; 0; 0; 0x53; 0x18; 0x45; 0; 0; 0; 8; 2; 5]; [0; 0; 1]] =
    (SDead, [EvItem (MkAmqpFrame 0 (FR_Close (MkClose None))); EvErr (CParse (EUnexpectedFrameType 5))]) /\
  feed_all amqp_frame_decode Debug stream_new [[0; 0; 0; 12; 2; 0; 0; 0; 0; 0x53; 0x18; 0x45; 0; 0; 0; 8; 2; 5; 0; 0; 1]] =
    (SDead, [EvItem (MkAmqpFrame 0 (FR_Close (MkClose None))); EvErr (CParse (EUnexpectedFrameType 5))]).
Proof. split; vm_compute; reflexivity. Qed.

(** ** C35 *)
(** A frame yielded: its length, and the bytes the length says, are gone from the buffer; nothing else. *)
Theorem C35_frame_taken : forall T (D : mode -> bytes -> res (bytes * T)) md src st1 src1 x, bytes_ok src -> zlen src < 2 ^ 63 ->
  amqp_codec_decode D md FrameHeader src = (st1, src1, DItem x) ->
  st1 = FrameHeader /\ exists body bs, framed body bs /\ src = bs ++ src1 /\ D md body = Ok ([], x).
Proof. exact (@item_takes). Qed.
Print Assumptions C35_frame_taken.
Theorem C35_body_taken : forall T (D : mode -> bytes -> res (bytes * T)) md size src st1 src1 x, 0 <= size ->
  amqp_codec_decode D md (Frame size) src = (st1, src1, DItem x) ->
  st1 = FrameHeader /\ exists body, zlen body = size /\ src = body ++ src1 /\ D md body = Ok ([], x).
Proof. exact (@item_takes_body). Qed.
Print Assumptions C35_body_taken.
(** A frame that is all there and accepted is yielded; a frame that is all there is never waited for. *)
Theorem C35_frame_given : forall T (D : mode -> bytes -> res (bytes * T)) md x bs rest, frame_of D md x bs ->
  amqp_codec_decode D md FrameHeader (bs ++ rest) = (FrameHeader, rest, DItem x).
Proof. exact (@codec_item). Qed.
Print Assumptions C35_frame_given.
Theorem C35_no_waiting : forall T (D : mode -> bytes -> res (bytes * T)) md body bs rest st1 src1, framed body bs -> 8 <= zlen (bs ++ rest) ->
  amqp_codec_decode D md FrameHeader (bs ++ rest) <> (st1, src1, DNone).
Proof. exact (@none_incomplete). Qed.
Print Assumptions C35_no_waiting.
(** A call that yields nothing makes no difference to any later call; a call that yields something does not depend on what
    comes later. *)
Theorem C35_nothing_lost : forall T (D : mode -> bytes -> res (bytes * T)) md st src st1 src1 more,
  amqp_codec_decode D md st src = (st1, src1, DNone) ->
  amqp_codec_decode D md st (src ++ more) = amqp_codec_decode D md st1 (src1 ++ more).
Proof. exact (@decode_resume). Qed.
Print Assumptions C35_nothing_lost.
Theorem C35_later_bytes : forall T (D : mode -> bytes -> res (bytes * T)) md st src more st1 src1 out,
  amqp_codec_decode D md st src = (st1, src1, out) -> out <> DNone ->
  amqp_codec_decode D md st (src ++ more) = (st1, src1 ++ more, out).
Proof. exact (@decode_more). Qed.
Print Assumptions C35_later_bytes.
(** A performative that leaves bytes of its frame unused is refused. *)
Theorem C35_trailing_bytes : forall md ch ext hdr p pb junk bs rest, wire_header 0 ch ext hdr -> wire_frame p pb -> frame_decodable p ->
  ~ takes_rest p -> junk <> [] -> framed (hdr ++ pb ++ junk) bs ->
  amqp_codec_decode amqp_frame_decode md FrameHeader (bs ++ rest) = (Frame (zlen (hdr ++ pb ++ junk)), rest, DErr CUnparsedBytesLeft).
Proof. exact trailing_bytes. Qed.
Print Assumptions C35_trailing_bytes.
Example C35_example :
  amqp_codec_decode amqp_frame_decode Debug FrameHeader ([0; 0; 0; 12; 2; 0; 0; 0; 0; 0x53; 0x18; 0x45] ++ [1; 2; 3]) =
    (FrameHeader, [1; 2; 3], DItem (MkAmqpFrame 0 (FR_Close (MkClose None)))) /\
  amqp_codec_decode amqp_frame_decode Debug FrameHeader [0; 0; 0; 12; 2; 0; 0; 0; 0] = (Frame 8, [2; 0; 0; 0; 0], DNone) /\
  amqp_codec_decode amqp_frame_decode Debug FrameHeader [0; 0; 0; 13; 2; 0; 0; 0; 0; 0x53; 0x18; 0x45; 0] = (Frame 9, [], DErr CUnparsedBytesLeft) /\
  wire_header 0 0 [] [2; 0; 0; 0] /\ framed ([2; 0; 0; 0] ++ [0; 0x53; 0x18; 0x45] ++ [0]) [0; 0; 0; 13; 2; 0; 0; 0; 0; 0x53; 0x18; 0x45; 0].
Proof.
  do 3 (split; [vm_compute; reflexivity|]). split; [exact (WH 0 2 0 [] ltac:(lia) ltac:(lia) eq_refl)|]. split; vm_compute; reflexivity.
Qed.

(** ** C36: refuted *)
(** After the error for one frame the decoder waits for another frame body of the same length: unless the next frame is 16 MB or
    longer, it is not what the next call yields. *)
Theorem C36_not_reset : forall md body bs e m tl, framed body bs -> 4 <= zlen body -> amqp_frame_decode md body = Err e -> 0 <= m < 2 ^ 24 ->
  amqp_codec_decode amqp_frame_decode md FrameHeader (bs ++ be4 m ++ tl) = (Frame (zlen body), be4 m ++ tl, DErr (CParse e)) /\
  forall st src x, amqp_codec_decode amqp_frame_decode md (Frame (zlen body)) (be4 m ++ tl) <> (st, src, DItem x).
Proof. exact never_recovers. Qed.
Print Assumptions C36_not_reset.
Theorem C36_sasl_not_reset : forall md body bs e m tl, framed body bs -> 4 <= zlen body -> sasl_frame_decode md body = Err e -> 0 <= m < 2 ^ 24 ->
  amqp_codec_decode sasl_frame_decode md FrameHeader (bs ++ be4 m ++ tl) = (Frame (zlen body), be4 m ++ tl, DErr (CParse e)) /\
  forall st src x, amqp_codec_decode sasl_frame_decode md (Frame (zlen body)) (be4 m ++ tl) <> (st, src, DItem x).
Proof. exact sasl_never_recovers. Qed.
Print Assumptions C36_sasl_not_reset.
(** A bad frame and a good one, both of 12 bytes: the good one is read as an error. *)
Theorem C36_recovery_refuted : exists bad good x e, (forall md, amqp_frame_decode md (zdrop 4 bad) = Err e) /\ framed (zdrop 4 bad) bad /\
  (forall md, frame_of amqp_frame_decode md x good) /\
  (forall md, amqp_codec_decode amqp_frame_decode md FrameHeader (bad ++ good) = (Frame 8, good, DErr (CParse e))) /\
  (forall md, amqp_codec_decode amqp_frame_decode md (Frame 8) good = (Frame 8, zdrop 8 good, DErr (CParse EInvalidSize))).
Proof. exact recovery_refuted. Qed.
Print Assumptions C36_recovery_refuted.
(** After a frame of length 4 every call returns the same error and takes nothing. *)
Theorem C36_stuck_refuted : forall md src,
  amqp_codec_decode amqp_frame_decode md (Frame 0) src = (Frame 0, src, DErr (CParse (EIncomplete (Some 4)))) /\
  amqp_codec_decode sasl_frame_decode md (Frame 0) src = (Frame 0, src, DErr (CParse (EIncomplete (Some 4)))).
Proof. exact four_stuck. Qed.
Print Assumptions C36_stuck_refuted.
Example C36_stuck_example : amqp_codec_decode amqp_frame_decode Release FrameHeader [0; 0; 0; 4; 1; 2; 3; 4] = (Frame 0, [1; 2; 3; 4], DErr (CParse (EIncomplete (Some 4)))).
Proof. vm_compute. reflexivity. Qed.

(** ** C37 *)
(** Lengths 4 to 7 are refused. *)
Theorem C37_small_length : forall md n rest, 4 <= n < 8 -> 4 <= zlen rest ->
  amqp_codec_decode amqp_frame_decode md FrameHeader (be4 n ++ rest) = (Frame (n - 4), zdrop (n - 4) rest, DErr (CParse (EIncomplete (Some 4)))) /\
  amqp_codec_decode sasl_frame_decode md FrameHeader (be4 n ++ rest) = (Frame (n - 4), zdrop (n - 4) rest, DErr (CParse (EIncomplete (Some 4)))).
Proof. exact small_length. Qed.
Print Assumptions C37_small_length.
(** Lengths 0 to 3: a debug build panics, a release build never yields anything again. *)
Theorem C37_debug_refuted : forall T (D : mode -> bytes -> res (bytes * T)) n chunks rest, 0 <= n < 4 -> concat chunks = be4 n ++ rest -> 4 <= zlen rest ->
  feed_all D Debug stream_new chunks = (SDead, [EvPanic PArith]).
Proof. exact (@tiny_panics). Qed.
Print Assumptions C37_debug_refuted.
Theorem C37_release_refuted : forall T (D : mode -> bytes -> res (bytes * T)) n chunks rest, 0 <= n < 4 -> concat chunks = be4 n ++ rest ->
  zlen rest < 2 ^ 64 - 4 -> snd (feed_all D Release stream_new chunks) = [].
Proof. exact (@tiny_forever). Qed.
Print Assumptions C37_release_refuted.
Example C37_example : feed_all amqp_frame_decode Release stream_new [[0; 0; 0; 3; 0; 0; 0; 12]; [2; 0; 0; 0; 0; 0x53; 0x18; 0x45]] =
  (SLive (Frame (2 ^ 64 - 1)) [0; 0; 0; 12; 2; 0; 0; 0; 0; 0x53; 0x18; 0x45], []).
Proof. vm_compute. reflexivity. Qed.

(** ** C38 *)
Theorem C38_waits : forall src, zlen src < 8 -> protocol_id_decode src = (src, PNone).
Proof. exact protocol_short. Qed.
Print Assumptions C38_waits.
(** Eight bytes are taken whatever they are, and the answer tells which part is wrong. *)
Theorem C38_cases : forall prefix id version rest, zlen prefix = 4 -> zlen version = 3 ->
  exists out, protocol_id_decode (prefix ++ id :: version ++ rest) = (rest, out) /\
  (prefix <> s2b "AMQP" -> out = PErr PIInvalidHeader) /\
  (prefix = s2b "AMQP" -> version <> [1; 0; 0] -> out = PErr PIIncompatible) /\
  (prefix = s2b "AMQP" -> version = [1; 0; 0] -> (forall p, id <> protocol_number p) -> out = PErr PIUnknown) /\
  (forall p, prefix = s2b "AMQP" -> version = [1; 0; 0] -> id = protocol_number p -> out = PItem p).
Proof. exact protocol_cases. Qed.
Print Assumptions C38_cases.
Theorem C38_accepts : forall p rest, protocol_id_decode (protocol_header p ++ rest) = (rest, PItem p).
Proof. exact protocol_accepts. Qed.
Print Assumptions C38_accepts.
Theorem C38_accepts_only : forall src rest p, protocol_id_decode src = (rest, PItem p) -> src = protocol_header p ++ rest.
Proof. exact protocol_only. Qed.
Print Assumptions C38_accepts_only.
Theorem C38_sends : forall slack p b, 0 <= slack -> buf_ok b ->
  exists b', protocol_id_encode slack p b = Some b' /\ b_data b' = b_data b ++ protocol_header p /\ buf_ok b'.
Proof. exact protocol_sent. Qed.
Print Assumptions C38_sends.
Example C38_example : protocol_header PAmqpSasl = [65; 77; 81; 80; 3; 1; 0; 0] /\ protocol_header PAmqp = [65; 77; 81; 80; 0; 1; 0; 0] /\
  protocol_header PAmqpTls = [65; 77; 81; 80; 2; 1; 0; 0] /\ protocol_id_decode [65; 77; 81; 80; 1; 1; 0; 0; 9] = ([9], PErr PIUnknown) /\
  protocol_id_decode [65; 77; 81; 80; 1; 1; 0; 1; 9] = ([9], PErr PIIncompatible).
Proof. repeat split; vm_compute; reflexivity. Qed.

(** ** C39 *)
Theorem C39_frame_fits : forall slack ch f b, 0 <= slack -> buf_ok b -> frame_valid f -> frame_memo_ok f ->
  exists b', amqp_codec_encode slack (amqp_frame_size (MkAmqpFrame ch f)) (amqp_frame_enc (MkAmqpFrame ch f)) b = Some b' /\
    b_data b' = b_data b ++ wbytes (amqp_frame_enc (MkAmqpFrame ch f)) /\ buf_ok b'.
Proof. exact amqp_encode_room. Qed.
Print Assumptions C39_frame_fits.
Theorem C39_sasl_frame_fits : forall slack y b, 0 <= slack -> buf_ok b -> s_valid sasl_frame_body_S y ->
  exists b', amqp_codec_encode slack (sasl_frame_size (MkSaslFrame y)) (sasl_frame_enc (MkSaslFrame y)) b = Some b' /\
    b_data b' = b_data b ++ wbytes (sasl_frame_enc (MkSaslFrame y)) /\ buf_ok b'.
Proof. exact sasl_encode_room. Qed.
Print Assumptions C39_sasl_frame_fits.
(** Any type written directly into a buffer with [encoded_size] bytes of room: nothing is reallocated, nothing panics. *)
Theorem C39_encoded_size_is_enough : forall T (S : tspec T) slack v b, amqp_type S -> 0 <= slack -> s_valid S v -> s_size S v <= remaining_mut b ->
  exists b', run_ops slack (e_enc (c_E (s_codec S)) v) b = Some b' /\ b_data b' = b_data b ++ s_bytes S v /\ b_cap b' = b_cap b.
Proof. exact (@type_encode_room). Qed.
Print Assumptions C39_encoded_size_is_enough.
(** [frame_memo_ok] is needed: a message whose value is set after its size was asked for overruns a buffer with 4096 bytes of room. *)
Theorem C39_stale_refuted : exists l, frame_valid (stale_transfer l) /\
  amqp_codec_encode 0 (amqp_frame_size (MkAmqpFrame 0 (stale_transfer l))) (amqp_frame_enc (MkAmqpFrame 0 (stale_transfer l))) (MkBuf 4096 []) = None.
Proof. exact stale_overrun. Qed.
Print Assumptions C39_stale_refuted.
Example C39_example : buf_ok (MkBuf 10 [1; 2; 3]) /\
  amqp_codec_encode 0 (amqp_frame_size a_heartbeat) (amqp_frame_enc a_heartbeat) (MkBuf 10 [1; 2; 3]) = Some (MkBuf 32771 [1; 2; 3; 0; 0; 0; 8; 2; 0; 0; 0]) /\
  run_ops 0 (e_enc (c_E (s_codec u16_S)) 5) (MkBuf 2 []) = None.
Proof. split; [vm_compute; discriminate|]. split; vm_compute; reflexivity. Qed.
