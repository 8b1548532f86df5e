(** The claim about deliveries, C81 of properties.jsonl.  The vocabulary, with the two applications, is in DeliverySpec. *)

From Coq Require Import String.
From Verif Require Import Connection Utf8Spec Valid Wire TypeSpec CompositeSpec AllTypes CodecSpec MessageSpec FrameSpec StreamSpec ConnectionSpec BoundSpec DeliverySpec DeliveryFacts.
Open Scope string_scope.
Open Scope list_scope.
Open Scope Z_scope.

(** Conditions on values that are given, piece by piece. *)
Ltac parts :=
  lazymatch goal with
  | |- _ < _ => vm_compute; reflexivity
  | |- _ <= _ => vm_compute; discriminate
  | |- _ = _ => vm_compute; reflexivity
  | |- True => exact I
  | |- bytes_ok _ => vm_compute; repeat (constructor; [split; [discriminate|reflexivity]|]); constructor
  | |- _ /\ _ => split; parts
  | |- Forall _ [] => apply Forall_nil
  | |- Forall _ (_ :: _) => apply Forall_cons; parts
  | |- Forall ?P ?l => let y := eval vm_compute in l in progress change (Forall P y); parts
  | |- _ => progress hnf; parts
  end.

(** ** C81 *)
(** From messages to messages: whatever the pieces, the frames between them, the chunks and the room in the buffer, each link gets its
    messages. *)
Theorem C81_delivered : forall md channel handle items fs ms b, map snd items = map IAmqp fs -> Forall (fun i => 0 <= fst i) items ->
  Forall amqp_sendable fs -> deliveries (transfers channel handle fs) ms -> Forall message_sendable ms -> buf_ok b -> b_data b = [] ->
  exists b', send_items items b = Some b' /\ forall chunks, concat chunks = b_data b' ->
    receive_all (collect md channel handle) md (connection_new ([], []) KAmqp) chunks =
      (connection_new ([], map (fun m => Some (received_message m)) ms) KAmqp, map (fun f => SItem (IAmqp (amqp_received f))) fs).
Proof. exact delivered. Qed.
Print Assumptions C81_delivered.

(** Any pieces of a message can be sent, each in a frame 66 bytes longer at most. *)
Theorem C81_pieces : forall channel handle id tag m pieces limit, 0 <= channel < 2 ^ 16 -> 0 <= handle < 2 ^ 32 -> 0 <= id < 2 ^ 32 ->
  bytes_ok tag -> zlen tag <= 32 -> limit < 2 ^ 32 -> message_sendable m ->
  pieces <> [] -> concat pieces = message_bytes m -> Forall (fun p => 66 + zlen p <= limit) pieces ->
  let fs := in_frames channel (in_pieces handle id tag pieces) in
  Forall amqp_sendable fs /\ Forall (fun f => zlen (amqp_bytes f) <= limit) fs /\ deliveries (transfers channel handle fs) [m].
Proof. exact sent_in_pieces. Qed.
Print Assumptions C81_pieces.

(** So every message can be sent within any limit on frames, the smallest the standard allows (512 bytes) and smaller ones. *)
Theorem C81_fits : forall channel handle id tag m limit, 0 <= channel < 2 ^ 16 -> 0 <= handle < 2 ^ 32 -> 0 <= id < 2 ^ 32 ->
  bytes_ok tag -> zlen tag <= 32 -> 66 < limit < 2 ^ 32 -> message_sendable m ->
  exists pieces, let fs := in_frames channel (in_pieces handle id tag pieces) in
    Forall amqp_sendable fs /\ Forall (fun f => zlen (amqp_bytes f) <= limit) fs /\ deliveries (transfers channel handle fs) [m] /\
    zlen fs <= zlen (message_bytes m) / (limit - 66) + 1.
Proof. exact fits. Qed.
Print Assumptions C81_fits.

(** Two messages on one link, in three transfers and in one; between them another link, another channel, a delivery that is aborted. *)
Definition told : message := with_body [1; 2; 3; 4; 5; 6; 7].
Definition later : message := with_body [8; 9].
Definition piece_1 := firstn 3 (message_bytes told).
Definition piece_2 := firstn 4 (skipn 3 (message_bytes told)).
Definition piece_3 := skipn 7 (message_bytes told).
Definition aborted (handle : Z) : transfer_t := MkTransfer handle None None None None false None None false true false None.
Definition several : list amqp_frame :=
  [MkAmqpFrame 1 (FR_Transfer (first_transfer 5 0 [1] true piece_1)); MkAmqpFrame 1 (FR_Transfer (first_transfer 6 1 [2] false [0; 0]));
   MkAmqpFrame 1 (FR_Transfer (next_transfer 5 true piece_2)); MkAmqpFrame 2 (FR_Transfer (next_transfer 5 false [7]));
   MkAmqpFrame 1 (FR_Transfer (next_transfer 5 false piece_3)); MkAmqpFrame 1 FR_Empty;
   MkAmqpFrame 1 (FR_Transfer (first_transfer 5 2 [3] true [9; 9])); MkAmqpFrame 1 (FR_Transfer (aborted 5));
   MkAmqpFrame 1 (FR_Transfer (first_transfer 5 3 [4] false (message_bytes later)))].
Example C81_example : zlen (message_bytes told) = 12 /\ deliveries (transfers 1 5 several) [told; later] /\ Forall amqp_sendable several /\
  (let bs := concat (map amqp_bytes several) in
   fst (receive_all (collect Debug 1 5) Debug (connection_new ([], []) KAmqp) (map (fun b => [b]) bs)) =
     connection_new ([], [Some (received_message told); Some (received_message later)]) KAmqp /\
   fst (receive_all (collect Debug 2 5) Debug (connection_new ([], []) KAmqp) [bs]) = connection_new ([], [None]) KAmqp) /\
  mb_data (m_body (received_message told)) = [[1; 2; 3; 4; 5; 6; 7]].
Proof.
  split; [reflexivity|]. split.
  - apply (deliveries_one [first_transfer 5 0 [1] true piece_1; next_transfer 5 true piece_2] (next_transfer 5 false piece_3) told);
      [repeat constructor|split; reflexivity|vm_compute; reflexivity|].
    apply (deliveries_aborted [first_transfer 5 2 [3] true [9; 9]] (aborted 5)); [repeat constructor|reflexivity|].
    apply (deliveries_one [] _ later); [constructor|split; reflexivity|vm_compute; reflexivity|constructor].
  - split; [|split; [split; vm_compute; reflexivity|reflexivity]].
    repeat (apply Forall_cons; [split; [vm_compute; split; [discriminate|reflexivity]|]|]); try apply Forall_nil.
    all: cbn [af_performative]; lazymatch goal with
      | |- frame_sendable (FR_Transfer (first_transfer _ _ _ _ _)) => apply first_sendable; parts
      | |- frame_sendable (FR_Transfer (next_transfer _ _ _)) => apply next_sendable; parts
      | |- _ => repeat split; parts
      end.
Qed.

(** Whatever arrives: the messages delivered are what the transfers of the link that were seen carry, and no others.  What was not seen does
    not begin with a whole frame; after a failure it cannot become one. *)
Theorem C81_received : forall md channel handle chunks, bytes_ok (concat chunks) -> zlen (concat chunks) < 2 ^ 63 ->
  exists fs bss part got tail, concat chunks = concat bss ++ tail /\ Forall2 (frame_of amqp_frame_decode md) fs bss /\
    collected md (transfers channel handle fs) part got /\
    (((forall f bs rest, frame_of amqp_frame_decode md f bs -> tail <> bs ++ rest) /\
      exists r rest, receive_all (collect md channel handle) md (connection_new ([], []) KAmqp) chunks =
        (CLive (part, got) r rest, map (fun f => SItem (IAmqp f)) fs)) \/
     ((forall f bs rest more, frame_of amqp_frame_decode md f bs -> tail ++ more <> bs ++ rest) /\
      exists e, receive_all (collect md channel handle) md (connection_new ([], []) KAmqp) chunks =
        (CDead, map (fun f => SItem (IAmqp f)) fs ++ [SFail e]))).
Proof. exact collects. Qed.
Print Assumptions C81_received.
Example C81_received_example :
  let bs := concat (map amqp_bytes (firstn 3 several)) in bytes_ok bs /\ zlen bs < 2 ^ 63 /\
  fst (receive_all (collect Debug 1 5) Debug (connection_new ([], []) KAmqp) [bs ++ [0; 0]]) = CLive (firstn 7 (message_bytes told), []) (RAmqp FrameHeader) [0; 0] /\
  collected Debug (transfers 1 5 (firstn 3 several)) (firstn 7 (message_bytes told)) [] /\
  fst (receive_all (collect Debug 1 5) Debug (connection_new ([], []) KAmqp) [bs ++ [0; 0; 0; 0; 0; 0; 0; 0]]) = CDead.
Proof.
  cbv zeta. split; [hnf; parts|]. split; [vm_compute; reflexivity|]. split; [vm_compute; reflexivity|]. split; [|vm_compute; reflexivity].
  apply (collected_part Debug [first_transfer 5 0 [1] true piece_1; next_transfer 5 true piece_2]). repeat constructor.
Qed.

(** A message that was received is the same wherever it is sent on to, in whatever pieces. *)
Theorem C81_forwarded : forall md channel handle items fs ms b, map snd items = map IAmqp fs -> Forall (fun i => 0 <= fst i) items ->
  Forall amqp_sendable fs -> deliveries (transfers channel handle fs) ms -> Forall passed_on ms -> buf_ok b -> b_data b = [] ->
  exists b', send_items items b = Some b' /\ forall chunks, concat chunks = b_data b' ->
    receive_all (collect md channel handle) md (connection_new ([], []) KAmqp) chunks =
      (connection_new ([], map Some ms) KAmqp, map (fun f => SItem (IAmqp (amqp_received f))) fs).
Proof. exact forwarded. Qed.
Print Assumptions C81_forwarded.
(** Received in the long form of its section; sent on in the short one. *)
Definition long_form : bytes := [0x00; 0x80; 0; 0; 0; 0; 0; 0; 0; 0x75; 0xb0; 0; 0; 0; 7; 1; 2; 3; 4; 5; 6; 7].
Example C81_forwarded_example : exists m r, message_decode Debug long_form = Ok (r, m) /\ passed_on m /\
  message_bytes m = [0x00; 0x53; 0x75; 0xa0; 7; 1; 2; 3; 4; 5; 6; 7] /\ deliveries [first_transfer 9 0 [1] true (firstn 5 (message_bytes m)); next_transfer 9 false (skipn 5 (message_bytes m))] [m].
Proof.
  eexists. eexists. split; [vm_compute; reflexivity|]. split; [|split; [vm_compute; reflexivity|]].
  - split; [exists Debug, long_form; eexists; split; [hnf; parts|vm_compute; reflexivity]|]. split; [|left; discriminate].
    match goal with |- Forall _ ?l => let y := eval vm_compute in l in change l with y end. apply Forall_cons; [parts|apply Forall_nil].
  - apply (deliveries_one [_] _ _ [] []); [repeat constructor|split; reflexivity|vm_compute; reflexivity|constructor].
Qed.
