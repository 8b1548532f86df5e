(** The claim about a connection that uses several codecs, C73 of properties.jsonl.  The reading loop is in Connection, the vocabulary in
    ConnectionSpec; an application is any function [step]. *)

From Coq Require Import String.
From Verif Require Import Connection Utf8Spec Valid Wire TypeSpec CompositeSpec AllTypes CodecSpec MessageSpec FrameSpec StreamSpec ConnectionSpec ConnectionFacts.
Open Scope string_scope.
Open Scope list_scope.
Open Scope Z_scope.

(** ** C73 *)
(** From the encoders of one side to the application on the other, through any chunks. *)
Theorem C73_conversation : forall A (step : A -> item -> A * option kind) md items a k a' k' b,
  Forall (fun i => 0 <= fst i /\ item_sendable (snd i)) items -> buf_ok b -> b_data b = [] ->
  agrees step a k (map (fun i => item_received (snd i)) items) a' k' ->
  exists b', send_items items b = Some b' /\ forall chunks, concat chunks = b_data b' ->
    receive_all step md (connection_new a k) chunks = (connection_new a' k', map (fun i => SItem (item_received (snd i))) items).
Proof. exact (@conversation). Qed.
Print Assumptions C73_conversation.
(** Whatever encodes the items. *)
Theorem C73_received : forall A (step : A -> item -> A * option kind) md a k xs a' k' bss chunks,
  agrees step a k xs a' k' -> Forall2 (item_bytes md) xs bss -> concat chunks = concat bss ->
  receive_all step md (connection_new a k) chunks = (connection_new a' k', map SItem xs).
Proof. exact (@connection_received). Qed.
Print Assumptions C73_received.
(** Whatever is received: the items seen stand in the bytes, each of the kind expected, and what comes after is waiting for more or failed. *)
Theorem C73_only : forall A (step : A -> item -> A * option kind) md a k chunks, bytes_ok (concat chunks) -> zlen (concat chunks) < 2 ^ 63 ->
  exists xs bss a' k' tail, concat chunks = concat bss ++ tail /\ Forall2 (item_bytes md) xs bss /\ agrees step a k xs a' k' /\
    ((exists r rest, read_item md (reader_new k') tail = (r, rest, RNone) /\ receive_all step md (connection_new a k) chunks = (CLive a' r rest, map SItem xs)) \/
     (exists r rest e, read_item md (reader_new k') tail = (r, rest, RFail e) /\ receive_all step md (connection_new a k) chunks = (CDead, map SItem xs ++ [SFail e]))).
Proof. exact (@connection_only). Qed.
Print Assumptions C73_only.
(** What was not seen does not begin with a whole item of the kind expected; after a failure it cannot become one. *)
Theorem C73_complete : forall A (step : A -> item -> A * option kind) md a k chunks, bytes_ok (concat chunks) -> zlen (concat chunks) < 2 ^ 63 ->
  exists xs bss a' k' tail, concat chunks = concat bss ++ tail /\ Forall2 (item_bytes md) xs bss /\ agrees step a k xs a' k' /\
    (((forall x bs rest, kind_of x = k' -> item_bytes md x bs -> tail <> bs ++ rest) /\
      exists r rest, receive_all step md (connection_new a k) chunks = (CLive a' r rest, map SItem xs)) \/
     ((forall x bs rest more, kind_of x = k' -> item_bytes md x bs -> tail ++ more <> bs ++ rest) /\
      exists e, receive_all step md (connection_new a k) chunks = (CDead, map SItem xs ++ [SFail e]))).
Proof. exact (@connection_complete). Qed.
Print Assumptions C73_complete.
Theorem C73_chunks : forall A (step : A -> item -> A * option kind) md a k one other, concat one = concat other ->
  receive_all step md (connection_new a k) one = receive_all step md (connection_new a k) other.
Proof. exact (@two_chunkings). Qed.
Print Assumptions C73_chunks.
Theorem C73_loop_ends : forall A (step : A -> item -> A * option kind) md a k chunks, ~ In (SFail FOof) (snd (receive_all step md (connection_new a k) chunks)).
Proof. exact (@connection_no_oof). Qed.
Print Assumptions C73_loop_ends.
(** The handshake of part 5.3.2: header, SASL frames, outcome, header, frames. *)
Theorem C73_handshake : forall p frames auth outcome, Forall (fun x => exists f, x = IAmqp f) frames ->
  Forall (fun x => exists f, x = ISasl f /\ forall o, sf_body f <> SB_SaslOutcome o) auth ->
  agrees handshake Greeting KHeader
    (IHeader PAmqpSasl :: auth ++ ISasl (MkSaslFrame (SB_SaslOutcome outcome)) :: IHeader p :: frames) Running KAmqp.
Proof. exact handshake_agrees. Qed.
Print Assumptions C73_handshake.
Definition a_session : list item := [IHeader PAmqpSasl; ISasl (MkSaslFrame (SB_SaslOutcome (MkSaslOutcome SaslCode_Ok None))); IHeader PAmqp; IAmqp (MkAmqpFrame 0 (FR_Close (MkClose None)))].
Example C73_example : Forall item_sendable a_session /\ map item_received a_session = a_session /\ agrees handshake Greeting KHeader a_session Running KAmqp /\
  let bs := concat [protocol_header PAmqpSasl; wbytes (sasl_frame_enc (MkSaslFrame (SB_SaslOutcome (MkSaslOutcome SaslCode_Ok None)))); protocol_header PAmqp;
    wbytes (amqp_frame_enc (MkAmqpFrame 0 (FR_Close (MkClose None))))] in
  receive_all handshake Debug (connection_new Greeting KHeader) [bs] = (connection_new Running KAmqp, map SItem a_session) /\
  receive_all handshake Release (connection_new Greeting KHeader) (map (fun b => [b]) bs) = (connection_new Running KAmqp, map SItem a_session).
Proof.
  split; [repeat (constructor; [repeat split; vm_compute; (reflexivity || discriminate)|]); constructor|]. split; [reflexivity|]. split.
  - apply (handshake_agrees PAmqp [_] []); repeat constructor. eauto.
  - cbv zeta. split; vm_compute; reflexivity.
Qed.

(** After an item the codec is as good as new, so it can be exchanged then. *)
Theorem C73_exchange : forall md r src r1 src1 x, read_item md r src = (r1, src1, RItem x) -> r1 = reader_new (kind_of x).
Proof. exact as_new. Qed.
Print Assumptions C73_exchange.
(** While it waits it cannot: the length it has read is in no buffer. *)
Theorem C73_exchange_refuted : exists x bs part more r src, bs = part ++ more /\ (forall md, item_bytes md (IAmqp x) bs) /\
  (forall md, read_item md (reader_new KAmqp) part = (r, src, RNone)) /\ (forall md, read_item md r (src ++ more) = (reader_new KAmqp, [], RItem (IAmqp x))) /\
  (forall md, read_item md (reader_new KAmqp) (src ++ more) <> (reader_new KAmqp, [], RItem (IAmqp x))).
Proof.
  exists (MkAmqpFrame 0 (FR_Close (MkClose None))), [0; 0; 0; 12; 2; 0; 0; 0; 0; 0x53; 0x18; 0x45], [0; 0; 0; 12; 2; 0; 0; 0], [0; 0x53; 0x18; 0x45], (RAmqp (Frame 8)), [2; 0; 0; 0].
  split; [reflexivity|]. split; [|split; [|split]].
  - intros md. exists [2; 0; 0; 0; 0; 0x53; 0x18; 0x45]. split; [split; reflexivity|]. split; [vm_compute; discriminate|]. destruct md; vm_compute; reflexivity.
  - intros []; vm_compute; reflexivity.
  - intros []; vm_compute; reflexivity.
  - intros []; vm_compute; discriminate.
Qed.
Print Assumptions C73_exchange_refuted.

(** The wrong codec: frames are refused at once, but a protocol header is taken for the length of a frame of 1095586128 bytes and waited for. *)
Theorem C73_sasl_refuses : forall A (step : A -> item -> A * option kind) md a f bs rest chunks, frame_of amqp_frame_decode md f bs -> concat chunks = bs ++ rest ->
  receive_all step md (connection_new a KSasl) chunks = (CDead, [SFail (FFrame (CParse (EUnexpectedFrameType 0)))]).
Proof. exact (@sasl_refuses). Qed.
Print Assumptions C73_sasl_refuses.
Theorem C73_amqp_refuses : forall A (step : A -> item -> A * option kind) md a f bs rest chunks, frame_of sasl_frame_decode md f bs -> concat chunks = bs ++ rest ->
  receive_all step md (connection_new a KAmqp) chunks = (CDead, [SFail (FFrame (CParse (EUnexpectedFrameType 1)))]).
Proof. exact (@amqp_refuses). Qed.
Print Assumptions C73_amqp_refuses.
Theorem C73_header_refuses : forall A (step : A -> item -> A * option kind) md a body bs rest chunks, framed body bs -> 4 + zlen body <> AMQP_length -> 8 <= zlen (bs ++ rest) ->
  concat chunks = bs ++ rest -> receive_all step md (connection_new a KHeader) chunks = (CDead, [SFail (FHeader PIInvalidHeader)]).
Proof. exact (@frame_refused). Qed.
Print Assumptions C73_header_refuses.
Theorem C73_header_unnoticed : forall A (step : A -> item -> A * option kind) md a k p rest chunks, k <> KHeader -> 8 + zlen rest < AMQP_length ->
  concat chunks = protocol_header p ++ rest -> exists r src, receive_all step md (connection_new a k) chunks = (CLive a r src, []).
Proof. exact (@header_waits). Qed.
Print Assumptions C73_header_unnoticed.
Example C73_wrong_example : (forall md, frame_of amqp_frame_decode md (MkAmqpFrame 0 FR_Empty) [0; 0; 0; 8; 2; 0; 0; 0]) /\
  receive_all handshake Debug (connection_new Authenticating KSasl) [[0; 0; 0; 8; 2]; [0; 0; 0; 1]] = (CDead, [SFail (FFrame (CParse (EUnexpectedFrameType 0)))]) /\
  receive_all handshake Debug (connection_new Greeting KHeader) [[0; 0; 0; 8; 2]; [0; 0; 0; 1]] = (CDead, [SFail (FHeader PIInvalidHeader)]) /\
  receive_all handshake Debug (connection_new Authenticating KSasl) [protocol_header PAmqp; [1; 2; 3]] = (CLive Authenticating (RSasl (Frame 1095586124)) [0; 1; 0; 0; 1; 2; 3], []).
Proof.
  split; [|repeat split; vm_compute; reflexivity]. intros md. exists [2; 0; 0; 0]. split; [split; reflexivity|]. split; [vm_compute; discriminate|]. destruct md; vm_compute; reflexivity.
Qed.
