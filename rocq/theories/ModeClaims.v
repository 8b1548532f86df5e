(** The claim about builds with and without overflow checks, C79 of properties.jsonl.  The vocabulary is in ModeSpec. *)

From Coq Require Import String.
From Verif Require Import Io Connection Utf8Spec Valid Wire TypeSpec CompositeSpec AllTypes CodecSpec MessageSpec FrameSpec StreamSpec ModeSpec ModeFacts.
Open Scope string_scope.
Open Scope list_scope.
Open Scope Z_scope.

(** ** C79: the two builds differ only where the checks stop the program, and there the input holds a header whose size does not cover its count. *)
Theorem C79_types : forall T (S : tspec T), amqp_type S -> forall inp, same_or_stops inp (decode (s_dec S) Debug inp) (decode (s_dec S) Release inp).
Proof. exact (@types_same). Qed.
Print Assumptions C79_types.
Theorem C79_messages : forall inp, same_or_stops inp (message_decode Debug inp) (message_decode Release inp).
Proof. exact messages_same. Qed.
Print Assumptions C79_messages.
Theorem C79_amqp_frames : forall inp, same_or_stops inp (amqp_frame_decode Debug inp) (amqp_frame_decode Release inp).
Proof. exact amqp_same. Qed.
Print Assumptions C79_amqp_frames.
Theorem C79_sasl_frames : forall inp, same_or_stops inp (sasl_frame_decode Debug inp) (sasl_frame_decode Release inp).
Proof. exact sasl_same. Qed.
Print Assumptions C79_sasl_frames.
(** On a stream the checks can only cut what is received. *)
Theorem C79_amqp_streams : forall chunks s, same_or_cut (EvPanic PArith) (feed_all amqp_frame_decode Debug s chunks) (feed_all amqp_frame_decode Release s chunks).
Proof. exact amqp_stream_same. Qed.
Print Assumptions C79_amqp_streams.
Theorem C79_sasl_streams : forall chunks s, same_or_cut (EvPanic PArith) (feed_all sasl_frame_decode Debug s chunks) (feed_all sasl_frame_decode Release s chunks).
Proof. exact sasl_stream_same. Qed.
Print Assumptions C79_sasl_streams.
Theorem C79_connections : forall A (step : A -> item -> A * option kind) chunks c,
  same_or_cut (SFail (FPanic PArith)) (receive_all step Debug c chunks) (receive_all step Release c chunks).
Proof. exact (@receive_all_law). Qed.
Print Assumptions C79_connections.

(** What the build without checks makes of a size of 0 in one byte: 255 bytes.  ([C12_..._size_underflow]: the other build stops.) *)
Theorem C79_list_wraps : forall T (d : dec T) n r, 0 <= n < 256 ->
  decode (list_dec d) Release ([0xc0; 0; n] ++ r) = decode (list_dec d) Release ([0xd0] ++ be4 (4 + 255) ++ be4 n ++ r).
Proof. exact (@list_wraps). Qed.
Print Assumptions C79_list_wraps.
Theorem C79_map_wraps : forall K V (KO : key K) (dk : dec K) (dv : dec V) n r, 0 <= n < 256 ->
  decode (map_dec KO dk dv) Release ([0xc1; 0; n] ++ r) = decode (map_dec KO dk dv) Release ([0xd1] ++ be4 (4 + 255) ++ be4 n ++ r).
Proof. exact (@map_wraps). Qed.
Print Assumptions C79_map_wraps.
Theorem C79_array_wraps : forall T (d : dec T) n r, 0 <= n < 256 ->
  decode (vec_dec d) Release ([0xe0; 0; n] ++ r) = decode (vec_dec d) Release ([0xf0] ++ be4 (4 + 255) ++ be4 n ++ r).
Proof. exact (@vec_wraps). Qed.
Print Assumptions C79_array_wraps.
Theorem C79_composite_wraps : forall K label n r, In K all_composites -> wire_label (k_code K) (k_name K) label -> 0 <= n < 256 ->
  decode (s_dec (composite_S K)) Release (0x00 :: label ++ [0xc0; 0; n] ++ r) =
  decode (s_dec (composite_S K)) Release (0x00 :: label ++ [0xd0] ++ be4 (4 + 255) ++ be4 n ++ r).
Proof. exact composite_wraps. Qed.
Print Assumptions C79_composite_wraps.
(** In four bytes: almost four gigabytes, so it asks for more. *)
Theorem C79_composite_waits : forall K label size n r, In K all_composites -> wire_label (k_code K) (k_name K) label ->
  0 <= size < 4 -> 0 <= n < 2 ^ 32 -> zlen r < 2 ^ 32 - 4 + size ->
  decode (s_dec (composite_S K)) Release (0x00 :: label ++ [0xd0] ++ be4 size ++ be4 n ++ r) = Err (EIncomplete (Some (2 ^ 32 - 4 + size))).
Proof. exact composite_waits. Qed.
Print Assumptions C79_composite_waits.

(** So the builds do not accept the same: without checks a size of 0 takes the next 255 bytes for the rest of the value, here a whole [detach] among them. *)
Theorem C79_same_refuted : exists detach zeros,
  decode (s_dec detach_S) Release detach = Ok ([], MkDetach 7 true None) /\
  decode (s_dec end_S) Debug ([0x00; 0x53; 0x17; 0xc0; 0; 0] ++ detach ++ zeros) = Panic PArith /\
  decode (s_dec end_S) Release ([0x00; 0x53; 0x17; 0xc0; 0; 0] ++ detach ++ zeros) = Ok ([], MkEnd None).
Proof.
  exists [0x00; 0x53; 0x16; 0xc0; 4; 2; 0x52; 7; 0x41], (repeat 0 246). repeat split; vm_compute; reflexivity.
Qed.
Print Assumptions C79_same_refuted.

(** Cases: both ends of [same_or_stops]; a header in an array of maps, away from its code; a stream cut after its first frame. *)
Example C79_example :
  same_or_stops [0xc1; 1; 0] (decode (s_dec fields_S) Debug [0xc1; 1; 0]) (decode (s_dec fields_S) Release [0xc1; 1; 0]) /\
  decode (s_dec fields_S) Debug [0xc1; 1; 0] = Ok ([], []) /\
  short [0xc1; 0; 0] /\ decode (s_dec fields_S) Debug [0xc1; 0; 0] = Panic PArith /\ decode (s_dec fields_S) Release [0xc1; 0; 0] = Panic PSlice /\
  (let bs := [0xe0; 6; 2; 0xc1; 1; 0; 0; 0] in short bs /\
    decode (vec_dec (s_dec fields_S)) Debug bs = Panic PArith /\ decode (vec_dec (s_dec fields_S)) Release bs = Panic PSlice) /\
  ~ short [0xc1; 1; 0] /\ ~ short [0x00; 0x53; 0x17; 0x45].
Proof.
  split; [left; vm_compute; reflexivity|]. split; [vm_compute; reflexivity|]. split.
  { exists [], 0xc1, [], [0; 0], []. split; [reflexivity|]. split; [left; split; [cbn; tauto|]; exists 0, 0; split; [reflexivity|lia]|now left]. }
  split; [vm_compute; reflexivity|]. split; [vm_compute; reflexivity|]. split.
  { split; [|split; vm_compute; reflexivity]. exists [0xe0; 6; 2], 0xc1, [1; 0], [0; 0], []. split; [reflexivity|].
    split; [left; split; [cbn; tauto|]; exists 0, 0; split; [reflexivity|lia]|right; left; now left]. }
  split.
  - intros (p & c & q & h & t & E & H & _). destruct H as [[H (size & count & -> & Hs)]|[H (a & b & -> & Ha & Hb & _)]].
    + destruct p as [|x p]; cbn [app] in E; injection E as <- E.
      * destruct q as [|u q]; cbn [app] in E; injection E as <- E; [lia|]. apply (f_equal (@length Z)) in E. rewrite app_length in E. cbn [length] in E. lia.
      * assert (I : In c [1; 0]) by (rewrite E; apply in_or_app; right; now left). cbn [In] in *. lia.
    + assert (zlen [0xc1; 1; 0] = zlen (p ++ c :: q ++ (a ++ b) ++ t)) as L by now rewrite E. unfold zlen in *. rewrite !app_length in L. cbn [length] in L. rewrite !app_length in L. lia.
  - intros (p & c & q & h & t & E & H & _). assert (I : In c [0x00; 0x53; 0x17; 0x45]) by (rewrite E; apply in_or_app; right; now left).
    cbn [In] in I. destruct H as [[H _]|[H _]]; cbn [In] in H; lia.
Qed.
Example C79_stream_example :
  snd (feed_all amqp_frame_decode Debug stream_new [[0; 0; 0; 8; 2; 0; 0; 0; 0; 0; 0; 3; 0; 0; 0; 0]]) = [EvItem (MkAmqpFrame 0 FR_Empty); EvPanic PArith] /\
  snd (feed_all amqp_frame_decode Release stream_new [[0; 0; 0; 8; 2; 0; 0; 0; 0; 0; 0; 3; 0; 0; 0; 0]]) = [EvItem (MkAmqpFrame 0 FR_Empty)].
Proof. split; vm_compute; reflexivity. Qed.
Example C79_wraps_example : In end_K all_composites /\ wire_label (k_code end_K) (k_name end_K) [0x53; 0x17] /\
  decode (s_dec end_S) Release ([0x00; 0x53; 0x17; 0xd0; 0; 0; 0; 3; 0; 0; 0; 0; 1]) = Err (EIncomplete (Some (2 ^ 32 - 1))) /\
  decode (list_dec u8_dec) Release [0xc0; 0; 1; 0x50; 9] = Ok ([], [9]) /\
  decode (vec_dec u8_dec) Release [0xe0; 0; 1; 0x50; 9] = Ok ([], [9]) /\
  decode (s_dec fields_S) Release ([0xc1; 0; 0] ++ repeat 1 256) = Ok ([1], []).
Proof.
  split; [repeat (first [left; reflexivity|right])|]. split; [left; now apply WUL_8|]. repeat split; vm_compute; reflexivity.
Qed.
