(** The claim C67 as theorems: equality of protocol values, messages and frames.  The vocabulary is in EqualSpec.v. *)

From Coq Require Import String Permutation.
From Verif Require Import Equal Io Utf8Spec Valid Wire TypeSpec CompositeSpec AllTypes CodecSpec EqualitySpec MessageSpec FrameSpec EqualSpec EqualFacts EqualFrameFacts.
Open Scope string_scope.
Open Scope list_scope.
Open Scope Z_scope.

(** ** Protocol values *)
Theorem C67_types : (forall T (S : tspec T) Q, compared S Q -> amqp_type S) /\ (forall K, In K all_composites -> exists Q, compared (composite_S K) Q).
Proof. exact (conj (@compared_type) compared_all). Qed.
Print Assumptions C67_types.
Theorem C67_same : forall T (S : tspec T) Q, compared S Q -> forall a b, s_valid S a -> s_valid S b -> (q_eqb Q a b = true <-> q_same Q a b).
Proof. exact @compared_same. Qed.
Print Assumptions C67_same.
Theorem C67_equivalence : forall T (S : tspec T) Q, compared S Q -> (forall a, s_valid S a -> q_eqb Q a a = true) /\
  (forall a b, s_valid S a -> s_valid S b -> q_eqb Q a b = true -> q_eqb Q b a = true) /\
  (forall a b c, s_valid S a -> s_valid S b -> s_valid S c -> q_eqb Q a b = true -> q_eqb Q b c = true -> q_eqb Q a c = true).
Proof. exact @compared_equivalence. Qed.
Print Assumptions C67_equivalence.
Theorem C67_size : forall T (S : tspec T) Q, compared S Q -> forall a b, s_valid S a -> s_valid S b -> q_eqb Q a b = true ->
  s_size S a = s_size S b /\ zlen (s_bytes S a) = zlen (s_bytes S b).
Proof. exact @compared_size. Qed.
Print Assumptions C67_size.
(** Two errors, in two ways: texts stored differently, entries in another order, zero with a sign. *)
Definition entry (k : string) (v : variant) : symbol * variant := (SStatic (s2b k), v).
Definition an_error : error_t := MkError (EC_AmqpError AmqpError_NotFound) (Some (s2b "gone")) (Some [entry "a" (VFloat 0); entry "b" VNull]).
Definition same_error : error_t :=
  MkError (EC_AmqpError AmqpError_NotFound) (Some (s2b "gone")) (Some [(SByteStr (s2b "b"), VNull); (SByteStr (s2b "a"), VFloat 0x80000000)]).
(** Conditions on values that are given, piece by piece. *)
Ltac parts :=
  lazymatch goal with
  | |- is_utf8 _ => apply ascii_utf8; vm_compute; reflexivity
  | |- _ < _ => vm_compute; reflexivity
  | |- _ <= _ => vm_compute; discriminate
  | |- _ = _ => vm_compute; reflexivity
  | |- True => exact I
  | |- _ /\ _ => split; parts
  | |- Forall _ [] => apply Forall_nil
  | |- Forall _ (_ :: _) => apply Forall_cons; parts
  | |- Forall ?P ?l => let l' := eval vm_compute in l in change (Forall P l'); parts
  | |- distinct_keys _ _ => repeat constructor
  | |- ForallOrdPairs _ _ => repeat constructor
  | |- _ \/ _ => left; parts
  | |- exists _, _ /\ _ => apply ascii_utf8; vm_compute; reflexivity
  | |- _ => progress hnf; parts
  end.
Example C67_example : compared error_S error_Q /\ s_valid error_S an_error /\ s_valid error_S same_error /\
  q_eqb error_Q an_error same_error = true /\ an_error <> same_error /\
  q_eqb error_Q an_error (MkError (EC_AmqpError AmqpError_NotFound) (Some (s2b "gone")) (Some [entry "a" (VFloat 0)])) = false /\
  q_eqb error_Q an_error (MkError (EC_AmqpError AmqpError_NotFound) None (Some [entry "a" (VFloat 0); entry "b" VNull])) = false.
Proof.
  split; [constructor|]. split; [parts|]. split; [parts|]. split; [reflexivity|]. split; [discriminate|]. split; reflexivity.
Qed.
(** What is sent and received again is equal exactly if nothing is lost on it; on what was received nothing is lost. *)
Theorem C67_round_trip : forall T (S : tspec T) Q, compared S Q -> forall md v rest, s_valid S v -> s_encodable S v -> s_size S v < 2 ^ 32 ->
  s_decodable S (s_canon S v) -> exists w, decode (s_dec S) md (s_bytes S v ++ rest) = Ok (rest, w) /\ (q_eqb Q v w = true <-> q_lossless Q v) /\ q_lossless Q w.
Proof. exact @compared_round_trip. Qed.
Print Assumptions C67_round_trip.
(** Equal values are received as equal values. *)
Theorem C67_received : forall T (S : tspec T) Q, compared S Q -> forall md a b r r',
  s_valid S a -> s_encodable S a -> s_size S a < 2 ^ 32 -> s_decodable S (s_canon S a) ->
  s_valid S b -> s_encodable S b -> s_size S b < 2 ^ 32 -> s_decodable S (s_canon S b) -> q_eqb Q a b = true ->
  exists a' b', decode (s_dec S) md (s_bytes S a ++ r) = Ok (r, a') /\ decode (s_dec S) md (s_bytes S b ++ r') = Ok (r', b') /\ q_eqb Q a' b' = true.
Proof. exact @compared_received. Qed.
Print Assumptions C67_received.
(** A condition not found, as a custom symbol: it comes back as the predefined one, which is not equal. *)
Example C67_round_trip_example : let lost := MkError (EC_Custom (SStatic (s2b "amqp:not-found"))) None None in
  Forall (fun v => s_valid error_S v /\ s_encodable error_S v /\ s_size error_S v < 2 ^ 32 /\ s_decodable error_S (s_canon error_S v))
    [an_error; same_error; lost] /\
  q_lossless error_Q an_error /\ ~ q_lossless error_Q lost /\ q_eqb error_Q lost (s_canon error_S lost) = false /\
  decode (s_dec error_S) Debug (s_bytes error_S lost) = Ok ([], MkError (EC_AmqpError AmqpError_NotFound) None None).
Proof.
  cbv zeta. split.
  { repeat apply Forall_cons; [| | |constructor]; (split; [parts|]; split; [parts|]; split; [vm_compute; reflexivity|parts]). }
  split; [parts|]. split; [|split; vm_compute; reflexivity].
  intros [H _]. cbn in H. apply (H (EC_AmqpError AmqpError_NotFound) "amqp:not-found"); [|reflexivity]. cbn. tauto.
Qed.
(** Hash maps are equal exactly if one can be put in an order in which its entries are those of the other. *)
Theorem C67_map_order : forall l m,
  (s_valid fields_S l -> s_valid fields_S m -> (q_eqb fields_Q l m = true <->
     exists m', Permutation m m' /\ Forall2 (fun a b => str_bytes (fst a) = str_bytes (fst b) /\ same_value (snd a) (snd b)) l m')) /\
  (s_valid string_variant_map_S l -> s_valid string_variant_map_S m -> (q_eqb fields_Q l m = true <->
     exists m', Permutation m m' /\ Forall2 (fun a b => str_bytes (fst a) = str_bytes (fst b) /\ same_value (snd a) (snd b)) l m')).
Proof. exact fields_order. Qed.
Print Assumptions C67_map_order.
Theorem C67_variant_map_order : forall l m, s_valid vmap_S l -> s_valid vmap_S m -> (q_eqb vmap_Q l m = true <->
  exists m', Permutation m m' /\ Forall2 (fun a b => same_value (fst a) (fst b) /\ same_value (snd a) (snd b)) l m').
Proof. exact vmap_order. Qed.
Print Assumptions C67_variant_map_order.
Example C67_map_order_example : let l := [entry "a" (VFloat 0); entry "b" VNull] in let m := [entry "b" VNull; entry "a" (VFloat 0)] in
  s_valid fields_S l /\ s_valid fields_S m /\ q_eqb fields_Q l m = true /\ q_eqb fields_Q l (entry "c" VNull :: l) = false.
Proof. cbv zeta. split; [parts|]. split; [parts|]. split; reflexivity. Qed.

(** ** Messages *)
Theorem C67_in_message_same : forall a b, in_valid a -> in_valid b -> (in_message_eqb a b = true <-> same_in_message a b).
Proof. exact (at_same _ _ _ _ in_message_at). Qed.
Print Assumptions C67_in_message_same.
Theorem C67_in_message_equivalence : (forall a, in_valid a -> in_message_eqb a a = true) /\
  (forall a b, in_valid a -> in_valid b -> in_message_eqb a b = true -> in_message_eqb b a = true) /\
  (forall a b c, in_valid a -> in_valid b -> in_valid c -> in_message_eqb a b = true -> in_message_eqb b c = true -> in_message_eqb a c = true).
Proof. exact (at_equivalence _ _ _ _ in_message_at). Qed.
Print Assumptions C67_in_message_equivalence.
Theorem C67_out_message_same : forall a b, out_valid a -> out_valid b -> (out_message_eqb a b = true <-> same_out_message a b).
Proof. exact (at_same _ _ _ _ out_message_at). Qed.
Print Assumptions C67_out_message_same.
Theorem C67_out_message_equivalence : (forall a, out_valid a -> out_message_eqb a a = true) /\
  (forall a b, out_valid a -> out_valid b -> out_message_eqb a b = true -> out_message_eqb b a = true) /\
  (forall a b c, out_valid a -> out_valid b -> out_valid c -> out_message_eqb a b = true -> out_message_eqb b c = true -> out_message_eqb a c = true).
Proof. exact (at_equivalence _ _ _ _ out_message_at). Qed.
Print Assumptions C67_out_message_equivalence.
Theorem C67_message_size : forall a b, (in_valid a -> in_valid b -> in_message_eqb a b = true -> message_size a = message_size b) /\
  (out_valid a -> out_valid b -> out_message_eqb a b = true -> message_size a = message_size b).
Proof. exact (fun a b => conj (at_size _ _ _ _ in_message_at a b) (at_size _ _ _ _ out_message_at a b)). Qed.
Print Assumptions C67_message_size.
(** Properties in two orders: the order counts in an [OutMessage], not in an [InMessage]. *)
Definition with_properties (l : list (str * variant)) : message := MkMessage None None None None None (Some l) None (MkBody [[1]] [] [] None) 0.
Definition in_order : message := with_properties [entry "a" (VUint 1); entry "b" VNull].
Definition reordered : message := with_properties [entry "b" VNull; entry "a" (VUint 1)].
Example orders_valid : in_valid in_order /\ in_valid reordered /\ out_valid in_order /\ out_valid reordered.
Proof. unfold in_valid, out_valid. parts. Qed.
Example C67_message_example : in_valid in_order /\ in_valid reordered /\ out_valid in_order /\ out_valid reordered /\
  in_message_eqb in_order reordered = true /\ out_message_eqb in_order reordered = false /\
  transfer_body_eqb (TBMessageIn in_order) (TBMessageOut in_order) = false.
Proof. destruct orders_valid as (H1 & H2 & H3 & H4). repeat (split; [assumption|]). split; [reflexivity|]. split; reflexivity. Qed.
(** A message that was asked for its size is no longer equal to what it was, unless it had been asked before. *)
Theorem C67_message_asked : forall m, message_memo_ok m -> (in_valid m -> (in_message_eqb m (message_sized m) = true <-> m_size m <> 0)) /\
  (out_valid m -> (out_message_eqb m (message_sized m) = true <-> m_size m <> 0)).
Proof. exact (fun m M => conj (fun V => in_message_asked m V M) (fun V => out_message_asked m V M)). Qed.
Print Assumptions C67_message_asked.
Example C67_message_asked_example : message_memo_ok in_order /\ in_message_eqb in_order (message_sized in_order) = false /\
  in_message_eqb (message_sized in_order) (message_sized (message_sized in_order)) = true.
Proof. split; [split; [now left|constructor]|]. split; reflexivity. Qed.
(** A message received is equal to the one sent exactly if nothing was lost. *)
Theorem C67_message_round_trip : forall md m, message_sendable m ->
  exists r m', message_decode md (message_bytes m) = Ok (r, m') /\ (in_message_eqb m m' = true <-> message_kept m).
Proof. exact in_message_trip. Qed.
Print Assumptions C67_message_round_trip.
(** Equal messages are received as equal ones exactly if the messages in them are sent as the same bytes. *)
Theorem C67_messages_received : forall md a b, message_sendable a -> message_sendable b -> in_message_eqb a b = true \/ out_message_eqb a b = true ->
  exists r r' a' b', message_decode md (message_bytes a) = Ok (r, a') /\ message_decode md (message_bytes b) = Ok (r', b') /\
    (in_message_eqb a' b' = true <-> map payload (mb_messages (m_body a)) = map payload (mb_messages (m_body b))).
Proof. exact messages_received. Qed.
Print Assumptions C67_messages_received.
Example C67_message_round_trip_example : let odd := MkMessage (Some 0) None None None None None None (MkBody [[1]] [] [] None) 0 in
  message_sendable in_order /\ message_kept in_order /\ in_message_eqb in_order (received_message in_order) = true /\
  message_sendable odd /\ ~ message_kept odd /\ in_message_eqb odd (received_message odd) = false /\
  message_sendable reordered /\ in_message_eqb (received_message in_order) (received_message reordered) = true.
Proof.
  cbv zeta. split; [parts|]. split; [|split; [reflexivity|]].
  { unfold message_kept. repeat (split; [parts|]). left. discriminate. }
  split; [parts|]. split; [intros [H _]; discriminate H|]. split; [reflexivity|]. split; [parts|reflexivity].
Qed.
(** One message with its properties in two orders, inside a message: equal when sent, different when received. *)
Definition around (m : message) : message := MkMessage None None None None None None None (MkBody [] [] [TBMessageIn m] None) 0.
Theorem C67_messages_received_refuted : exists a b, in_valid a /\ in_valid b /\ message_sendable a /\ message_sendable b /\ in_message_eqb a b = true /\
  exists r r' a' b', message_decode Debug (message_bytes a) = Ok (r, a') /\ message_decode Debug (message_bytes b) = Ok (r', b') /\
    in_message_eqb a' b' = false.
Proof.
  exists (around in_order), (around reordered). split; [unfold in_valid; parts|]. split; [unfold in_valid; parts|]. split; [parts|]. split; [parts|]. split; [reflexivity|].
  do 4 eexists. split; [vm_compute; reflexivity|]. split; [vm_compute; reflexivity|]. reflexivity.
Qed.
Print Assumptions C67_messages_received_refuted.

(** ** Frames *)
Theorem C67_frame_same : forall f g, frame_value f -> frame_value g -> (frame_eqb f g = true <-> q_same frame_Q f g).
Proof. exact (at_same _ _ _ _ frame_at). Qed.
Print Assumptions C67_frame_same.
Theorem C67_amqp_frame : forall a b c, frame_value (af_performative a) -> frame_value (af_performative b) -> frame_value (af_performative c) ->
  amqp_frame_eqb a a = true /\ (amqp_frame_eqb a b = true <-> af_channel_id a = af_channel_id b /\ q_same frame_Q (af_performative a) (af_performative b)) /\
  (amqp_frame_eqb a b = true -> amqp_frame_eqb b a = true) /\
  (amqp_frame_eqb a b = true -> amqp_frame_eqb b c = true -> amqp_frame_eqb a c = true).
Proof. exact amqp_frame_equivalence. Qed.
Print Assumptions C67_amqp_frame.
Theorem C67_frame_size : forall a b, frame_value (af_performative a) -> frame_value (af_performative b) -> amqp_frame_eqb a b = true ->
  amqp_frame_size a = amqp_frame_size b.
Proof. exact amqp_frame_sizes. Qed.
Print Assumptions C67_frame_size.
Theorem C67_frame_round_trip : forall md ch f, 0 <= ch < 2 ^ 16 -> frame_sendable f ->
  exists body g, wbytes (amqp_frame_enc (MkAmqpFrame ch f)) = be4 (4 + zlen body) ++ body /\ amqp_frame_decode md body = Ok ([], g) /\
    (amqp_frame_eqb (MkAmqpFrame ch f) g = true <-> q_lossless frame_Q f).
Proof. exact amqp_frame_trip. Qed.
Print Assumptions C67_frame_round_trip.
(** On SASL frames nothing is lost. *)
Theorem C67_sasl_frame_round_trip : forall md b, sasl_sendable b ->
  exists body g, wbytes (sasl_frame_enc (MkSaslFrame b)) = be4 (4 + zlen body) ++ body /\ sasl_frame_decode md body = Ok ([], g) /\
    sasl_frame_eqb (MkSaslFrame b) g = true.
Proof. exact sasl_frame_trip. Qed.
Print Assumptions C67_sasl_frame_round_trip.
(** Equal frames are received as equal ones exactly if they carry the same bytes. *)
Theorem C67_frames_received : forall md ch f g, 0 <= ch < 2 ^ 16 -> frame_sendable f -> frame_sendable g -> frame_eqb f g = true ->
  exists bf bg f' g', wbytes (amqp_frame_enc (MkAmqpFrame ch f)) = be4 (4 + zlen bf) ++ bf /\ amqp_frame_decode md bf = Ok ([], f') /\
    wbytes (amqp_frame_enc (MkAmqpFrame ch g)) = be4 (4 + zlen bg) ++ bg /\ amqp_frame_decode md bg = Ok ([], g') /\
    (amqp_frame_eqb f' g' = true <-> frame_payload f = frame_payload g).
Proof. exact amqp_frames_received. Qed.
Print Assumptions C67_frames_received.
Definition carrying (t : option transfer_body) : frame := FR_Transfer (MkTransfer 3 (Some 300) (Some [1; 2]) None (Some true) false None None false false true t).
Example C67_frame_example :
  Forall (fun f => frame_value f /\ frame_sendable f) [FR_End (MkEnd (Some an_error)); FR_End (MkEnd (Some same_error)); carrying (Some (TBData [9; 8])); carrying None;
    carrying (Some (TBData [])); carrying (Some (TBMessageOut in_order)); FR_Empty] /\
  frame_eqb (FR_End (MkEnd (Some an_error))) (FR_End (MkEnd (Some same_error))) = true /\
  frame_eqb (FR_End (MkEnd (Some an_error))) (FR_Close (MkClose (Some an_error))) = false /\
  q_lossless frame_Q (carrying (Some (TBData [9; 8]))) /\ frame_eqb (carrying (Some (TBData [9; 8]))) (frame_canon (carrying (Some (TBData [9; 8])))) = true /\
  ~ q_lossless frame_Q (carrying (Some (TBData []))) /\ frame_canon (carrying (Some (TBData []))) = carrying None /\
  ~ q_lossless frame_Q (carrying (Some (TBMessageOut in_order))).
Proof.
  split. { parts. }
  split; [reflexivity|]. split; [reflexivity|]. split. { split; [repeat split|]. exists [9; 8]. split; [reflexivity|discriminate]. }
  split; [reflexivity|]. split; [|split; [reflexivity|]].
  - intros [_ (b & E & N)]. injection E as <-. now apply N.
  - intros [_ (b & E & N)]. discriminate E.
Qed.
(** A message with its properties in two orders, carried by a transfer: equal when sent, different when received. *)
Theorem C67_frames_received_refuted : exists f g f' g', frame_value f /\ frame_value g /\ frame_sendable f /\ frame_sendable g /\ frame_eqb f g = true /\
  frame_decode Debug (frame_bytes f) = Ok ([], f') /\ frame_decode Debug (frame_bytes g) = Ok ([], g') /\ frame_eqb f' g' = false.
Proof.
  exists (carrying (Some (TBMessageIn in_order))), (carrying (Some (TBMessageIn reordered))). do 2 eexists.
  do 4 (split; [parts|]). split; [reflexivity|]. split; [vm_compute; reflexivity|]. split; [vm_compute; reflexivity|]. reflexivity.
Qed.
Print Assumptions C67_frames_received_refuted.
