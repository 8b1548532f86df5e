(** The claims C25 to C29, C44, C45, C49, C50, C55, C56 and part of C41 as theorems: messages.  The vocabulary is in MessageSpec.v. *)

From Coq Require Import String Sorted.
From Verif Require Import Frames Utf8Spec Valid Wire TypeSpec CompositeSpec AllTypes CodecSpec MessageSpec MessageFacts BuilderFacts.
Open Scope string_scope.
Open Scope list_scope.
Open Scope Z_scope.

Ltac utf8 l := exists l; split; [repeat (apply Forall_cons; [left; lia|]); apply Forall_nil|reflexivity].

(** A message with most kinds of sections, used in the examples. *)
Definition a_header : header_t := MkHeader true 9 (Some 1000) false 3.
Definition a_properties : properties_t :=
  MkProperties (Some (MIUlong 7)) None None (Some (s2b "x")) None None (Some (SStatic (s2b "text/plain"))) None None None None None None.
Definition a_message : message :=
  MkMessage None (Some a_header) None (Some [(SByteStr (s2b "k"), VUint 5)]) (Some a_properties)
    (Some [(SByteStr (s2b "p"), VBoolean true); (SStatic (s2b "q"), VNull)]) None (MkBody [[1; 2; 3]; []] [] [] (Some (VUlong 300))) 0.

(** ** C25 *)
(** The predicted size is the number of bytes written plus 3 for every header section, nested ones included. *)
Theorem C25_message_size : forall m, message_valid m -> message_memo_ok m ->
  message_size m = zlen (message_bytes m) + 3 * message_headers m /\ bytes_ok (message_bytes m) /\ 0 <= message_headers m.
Proof. exact message_size_bytes. Qed.
Print Assumptions C25_message_size.
Theorem C25_message_size_refuted : exists m, message_valid m /\ message_memo_ok m /\ message_size m = zlen (message_bytes m) + 3.
Proof. exact header_size_refuted. Qed.
Print Assumptions C25_message_size_refuted.
(** A message with a header inside another message: the length written before it is wrong, and the outer message cannot be read. *)
Theorem C25_nested_header_refuted : exists m n, mb_messages (m_body m) = [TBMessageOut n] /\ message_valid m /\ message_memo_ok m /\
  m_header m = None /\ message_size m = zlen (message_bytes m) + 3 /\
  message_decode Debug (message_bytes m) = Err (EIncomplete (Some 20)) /\
  message_decode Release (message_bytes m) = Err (EIncomplete (Some 20)).
Proof. exact nested_header_refuted. Qed.
Print Assumptions C25_nested_header_refuted.
Example C25_example : message_valid a_message /\ message_memo_ok a_message /\ message_headers a_message = 1 /\ message_size a_message = 103 /\ zlen (message_bytes a_message) = 100.
Proof.
  split; [|split; [split; [now left|constructor]|repeat split; vm_compute; reflexivity]].
  repeat split; repeat constructor.
  all: try match goal with |- _ = _ => vm_compute; reflexivity | |- _ < _ => vm_compute; reflexivity | |- _ <= _ => vm_compute; discriminate end.
  - utf8 [107].
  - utf8 [120].
  - utf8 [116; 101; 120; 116; 47; 112; 108; 97; 105; 110].
  - utf8 [112].
  - utf8 [113].
Qed.

(** ** C26 *)
Theorem C26_round_trip : forall md m, message_sendable m -> message_lossless m ->
  exists r m', message_decode md (message_bytes m) = Ok (r, m') /\ same_content m m' /\
    (mb_messages (m_body m) = [] -> mb_data (m_body m) <> [] \/ mb_value (m_body m) <> None -> mb_data (m_body m') = mb_data (m_body m)) /\
    (mb_messages (m_body m) = [] -> mb_data (m_body m) = [] -> mb_value (m_body m) = None -> mb_data (m_body m') = [[]]).
Proof. exact message_survives. Qed.
Print Assumptions C26_round_trip.
(** Without [message_lossless] what comes back is [received_message m]. *)
Theorem C26_received : forall md m, message_sendable m -> exists r, message_decode md (message_bytes m) = Ok (r, received_message m).
Proof. exact (fun md m H => ex_intro _ _ (message_round_trip md m H)). Qed.
Print Assumptions C26_received.
Theorem C26_sequence_refuted : exists m, message_valid m /\ message_memo_ok m /\ mb_sequence (m_body m) = [[VNull]] /\
  message_decode Debug (message_bytes m) = Err (EInvalidFormatCode 0xe0) /\
  message_decode Release (message_bytes m) = Err (EInvalidFormatCode 0xe0).
Proof. exact sequence_refuted. Qed.
Print Assumptions C26_sequence_refuted.
Example C26_example : message_sendable a_message /\ message_lossless a_message /\ zlen (message_bytes a_message) = 100 /\
  exists r m', message_decode Release (message_bytes a_message) = Ok (r, m') /\
    mb_data (m_body m') = [[1; 2; 3]; []] /\ mb_value (m_body m') = Some (VUlong 300) /\ m_header m' = Some a_header.
Proof.
  split; [split; [|constructor]|].
  - unfold message_sections, a_message, body_sections. cbn [m_header m_delivery_annotations m_message_annotations m_properties
      m_application_properties m_footer m_body opt_list app mb_data mb_sequence mb_value mb_messages map].
    repeat (apply Forall_cons; [|]); try apply Forall_nil.
    all: repeat split; repeat constructor.
    all: try match goal with |- _ = _ => vm_compute; reflexivity | |- _ < _ => vm_compute; reflexivity | |- _ <= _ => vm_compute; discriminate end.
    + utf8 [107].
    + utf8 [120].
    + utf8 [116; 101; 120; 116; 47; 112; 108; 97; 105; 110].
    + utf8 [112].
    + utf8 [113].
  - split; [repeat constructor|]. split; [vm_compute; reflexivity|]. eexists. eexists. split; [vm_compute; reflexivity|]. repeat split.
Qed.
(** The part of an empty body. *)
Example C26_empty_body : message_bytes message_default = [0x00; 0x53; 0x75; 0xa0; 0] /\
  exists r, message_decode Debug (message_bytes message_default) = Ok (r, with_body []).
Proof. split; [vm_compute; reflexivity|]. eexists. vm_compute. reflexivity. Qed.

(** ** C27 *)
Theorem C27_nested : forall md m, message_sendable m -> mb_messages (m_body m) <> [] ->
  exists r, message_decode md (message_bytes m) = Ok (r, received_message m) /\
    mb_data (m_body (received_message m)) = mb_data (m_body m) ++ map payload (mb_messages (m_body m)) /\
    mb_messages (m_body (received_message m)) = [] /\
    forall n, In (TBMessageIn n) (mb_messages (m_body m)) \/ In (TBMessageOut n) (mb_messages (m_body m)) -> message_sendable n ->
      exists i r', nth_error (map payload (mb_messages (m_body m))) i = Some (message_bytes n) /\
        message_decode md (message_bytes n) = Ok (r', received_message n).
Proof. exact message_nested. Qed.
Print Assumptions C27_nested.
Example C27_example :
  let m := with_messages [TBMessageOut (with_body [1]); TBMessageIn (with_messages [TBMessageOut (with_body [2])]); TBData [3]] in
  message_sendable m /\ mb_messages (m_body m) <> [] /\ message_sendable (with_body [1]) /\
  map payload (mb_messages (m_body m)) =
    [[0x00; 0x53; 0x75; 0xa0; 1; 1]; [0x00; 0x53; 0x75; 0xa0; 6; 0x00; 0x53; 0x75; 0xa0; 1; 2]; [3]] /\
  message_bytes m = [0x00; 0x53; 0x75; 0xa0; 6; 0x00; 0x53; 0x75; 0xa0; 1; 1;
                     0x00; 0x53; 0x75; 0xa0; 11; 0x00; 0x53; 0x75; 0xa0; 6; 0x00; 0x53; 0x75; 0xa0; 1; 2;
                     0x00; 0x53; 0x75; 0xa0; 1; 3].
Proof.
  cbv zeta. split; [split|split; [discriminate|split; [split|split; vm_compute; reflexivity]]].
  - unfold message_sections. cbn [with_messages m_header m_delivery_annotations m_message_annotations m_properties
      m_application_properties m_footer m_body opt_list app mb_data mb_sequence mb_value mb_messages map body_sections].
    repeat (apply Forall_cons; [|]); try apply Forall_nil.
    all: repeat split; try (vm_compute; reflexivity).
    all: vm_compute; repeat constructor; discriminate.
  - repeat (apply Forall_cons; [|]); try apply Forall_nil.
    all: split; [|split; [|reflexivity]].
    all: repeat split; repeat constructor; vm_compute; discriminate.
  - apply Forall_cons; [|apply Forall_nil]. repeat split; try (vm_compute; reflexivity). vm_compute; repeat constructor; discriminate.
  - constructor.
Qed.

(** ** C28 *)
(** Whatever builder calls other than [set_value], questions for the size, and encodings lead from one message to another: the size is that of
    a message with the same content that was never asked; so it counts the bytes written as in C25. *)
Theorem C28_builders : forall m m', message_memo_ok m -> steps m m' -> message_size m' = message_size (message_forget m').
Proof. exact steps_size. Qed.
Print Assumptions C28_builders.
Theorem C28_builders_bytes : forall m m', message_memo_ok m -> steps m m' -> message_valid m' ->
  message_size m' = zlen (message_bytes m') + 3 * message_headers m'.
Proof. exact (fun m m' H S V => proj1 (message_size_bytes m' V (steps_memo m m' S H))). Qed.
Print Assumptions C28_builders_bytes.
(** Where messages start: from nothing, from a body, from messages, from input. *)
Theorem C28_start : message_memo_ok message_default /\ (forall b, message_memo_ok (with_body b)) /\
  (forall l, Forall body_memo_ok l -> message_memo_ok (with_messages l)) /\
  (forall md inp r m, message_decode md inp = Ok (r, m) -> message_memo_ok m).
Proof. exact start_memo. Qed.
Print Assumptions C28_start.
Example C28_example : exists m', steps message_default m' /\ message_size (message_sized message_default) = 5 /\ message_size m' = 17 /\
  message_headers m' = 0.
Proof.
  exists (message_sized (out_set_app_property (set_body (message_sized message_default) (fun b => body_set_data b [1; 2; 3])) (SStatic (s2b "")) VNull)).
  split; [|vm_compute; auto].
  apply st_size. apply st_body with (f := fun b => body_set_data b [1; 2; 3]); [constructor|].
  eapply st_out_property, st_size, st_done.
Qed.
(** After [set_value] the size remembered before stays. *)
Theorem C28_set_value_stale : forall m v, m_size m <> 0 -> message_size (set_value m v) = message_size m.
Proof. exact set_value_stale. Qed.
Print Assumptions C28_set_value_stale.
Theorem C28_set_value_refuted : exists m v, message_memo_ok m /\
  message_size (set_value (message_sized m) v) <> message_size (message_forget (set_value (message_sized m) v)) /\
  zlen (message_bytes (set_value (message_sized m) v)) <> message_size (set_value (message_sized m) v).
Proof. exact set_value_refuted. Qed.
Print Assumptions C28_set_value_refuted.
(** A value set in a nested message after the outer message was encoded once: the length before the nested message is stale, and its value
    is read as the value of the outer message.  Without the first encoding it is not. *)
Theorem C28_encode_then_edit_refuted : exists m v r r' m1 m2, message_memo_ok m /\ message_bytes (message_encoded m) = message_bytes m /\
  message_decode Debug (message_bytes (set_body m (edit_nested v))) = Ok (r, m1) /\ message_value m1 = None /\
  message_decode Debug (message_bytes (set_body (message_encoded m) (edit_nested v))) = Ok (r', m2) /\ message_value m2 = Some v.
Proof. exact encode_then_edit_refuted. Qed.
Print Assumptions C28_encode_then_edit_refuted.

(** ** C29 *)
Theorem C29_observer : forall m, message_size (message_sized m) = message_size m /\ message_bytes (message_sized m) = message_bytes m /\
  message_forget (message_sized m) = message_forget m /\ (message_memo_ok m -> message_memo_ok (message_sized m)).
Proof. exact message_sized_facts. Qed.
Print Assumptions C29_observer.
(** Encoding leaves behind sizes in nested messages. *)
Theorem C29_encode_observer : forall m, message_size (message_encoded m) = message_size m /\ message_bytes (message_encoded m) = message_bytes m /\
  message_forget (message_encoded m) = message_forget m /\ (message_memo_ok m -> message_memo_ok (message_encoded m)).
Proof. exact message_encoded_facts. Qed.
Print Assumptions C29_encode_observer.
Example C29_example : let m := with_messages [TBMessageOut (with_body [1])] in
  message_encoded m <> m /\ message_sized m <> message_encoded m /\ message_bytes (message_encoded m) = message_bytes m /\ message_size (message_encoded m) = 11.
Proof.
  cbv zeta. split; [|split; [|split; vm_compute; reflexivity]].
  - intros E. apply (f_equal (fun m => mb_messages (m_body m))) in E. vm_compute in E. discriminate.
  - intros E. apply (f_equal m_size) in E. vm_compute in E. discriminate.
Qed.
(** [==] on messages is derived and compares the remembered size too. *)
Theorem C29_equality_refuted : exists m, message_sized m <> m /\ message_forget (message_sized m) = message_forget m.
Proof. exact sized_differs_refuted. Qed.
Print Assumptions C29_equality_refuted.

(** ** C41, messages *)
Theorem C41_message_terminates : forall md inp, message_decode md inp <> Oof.
Proof. exact message_total. Qed.
Print Assumptions C41_message_terminates.

(** ** C44 *)
Theorem C44_in_properties : forall sets m q,
  in_app_property (fold_left (fun m kv => in_set_app_property m (fst kv) (snd kv)) sets m) q =
  match last_set q sets with Some v => Some v | None => in_app_property m q end.
Proof. exact in_properties_set. Qed.
Print Assumptions C44_in_properties.
Theorem C44_out_properties : forall sets m, sets <> [] ->
  out_app_properties (fold_left (fun m kv => out_set_app_property m (fst kv) (snd kv)) sets m) =
  Some (match out_app_properties m with Some l => l | None => [] end ++ sets).
Proof. exact out_properties_set. Qed.
Print Assumptions C44_out_properties.
Example C44_example :
  let m := in_set_app_property (in_set_app_property (in_set_app_property message_default
             (SStatic (s2b "a")) (VUint 1)) (SByteStr (s2b "b")) (VUint 2)) (SByteStr (s2b "a")) (VUint 3) in
  in_app_property m (s2b "a") = Some (VUint 3) /\ in_app_property m (s2b "b") = Some (VUint 2) /\ in_app_property m (s2b "c") = None /\
  m_application_properties m = Some [(SStatic (s2b "a"), VUint 3); (SByteStr (s2b "b"), VUint 2)].
Proof. repeat split. Qed.

(** ** C45 *)
Theorem C45_reply : forall m, reply_message m =
  match m_properties m with
  | None => message_default
  | Some p => MkMessage None None None None
      (Some (MkProperties None None None None None (properties_message_id p) None None None None None None None)) None None (MkBody [] [] [] None) 0
  end.
Proof. exact reply_spec. Qed.
Print Assumptions C45_reply.
Example C45_example : option_map properties_correlation_id (m_properties (reply_message a_message)) = Some (Some (MIUlong 7)).
Proof. reflexivity. Qed.

(** ** C49 *)
(** Any sequence of encoded sections is read as the message it stands for ([message_of]: the last one counts, data and sequences add up). *)
Theorem C49_sections : forall md secs parts, secs <> [] ->
  Forall2 (fun bs sec => s_wire section_S sec bs /\ s_decodable section_S sec) parts secs ->
  message_decode md (concat parts) = Ok (last parts [], message_of secs).
Proof. exact accepts_sections. Qed.
Print Assumptions C49_sections.
(** Nothing else is read. *)
Theorem C49_only_sections : forall md inp r m, message_decode md inp = Ok (r, m) ->
  exists secs parts, inp = concat parts /\ secs <> [] /\ Forall2 (reads section_dec md) parts secs /\ r = last parts [] /\ m = message_of secs.
Proof. exact message_read. Qed.
Print Assumptions C49_only_sections.
(** Sections of different kinds can change places. *)
Theorem C49_order : forall a s t b, section_kind s <> section_kind t -> message_of (a ++ s :: t :: b) = message_of (a ++ t :: s :: b).
Proof. exact message_of_swap. Qed.
Print Assumptions C49_order.
Theorem C49_unknown_section : forall md secs parts d label r,
  Forall2 (fun bs sec => s_wire section_S sec bs /\ s_decodable section_S sec) parts secs ->
  wire_descriptor d label -> d <> DUlong 0 -> Forall (fun a => ~ names (a_D a) d) section_alts ->
  message_decode md (concat parts ++ 0x00 :: label ++ r) = Err (EInvalidDescriptor d).
Proof. exact sections_unknown. Qed.
Print Assumptions C49_unknown_section.
Example C49_parts_example :
  Forall2 (fun bs sec => s_wire section_S sec bs /\ s_decodable section_S sec) [[0x00; 0x53; 0x77; 0x41]; [0x00; 0x53; 0x77; 0x52; 5]] [SEC_AmqpValue (VBoolean true); SEC_AmqpValue (VUint 5)] /\
  wire_descriptor (DUlong 0x79) [0x53; 0x79] /\ Forall (fun a => ~ names (a_D a) (DUlong 0x79)) section_alts /\
  section_kind (SEC_Data [1]) <> section_kind (SEC_AmqpValue VNull).
Proof.
  split; [|split; [apply WD_ulong, WUL_8; lia|split; [|vm_compute; discriminate]]].
  - constructor; [|constructor; [|constructor]]; (split; [|cbn; exact I]).
    + cbn. exists [0x53; 0x77], [0x41]. split; [left; apply WUL_8; lia|]. split; [apply W_boolean; constructor|reflexivity].
    + cbn. exists [0x53; 0x77], [0x52; 5]. split; [left; apply WUL_8; lia|]. split; [apply W_uint, WU_8; lia|reflexivity].
  - repeat (apply Forall_cons; [vm_compute; intuition congruence|]). apply Forall_nil.
Qed.
Example C49_example :
  message_decode Debug [0x00; 0x53; 0x75; 0xa0; 1; 1; 0x00; 0x53; 0x77; 0x41; 0x00; 0x53; 0x75; 0xa0; 1; 2; 0x00; 0x53; 0x77; 0x42] =
    Ok ([0x00; 0x53; 0x77; 0x42], message_of [SEC_Data [1]; SEC_AmqpValue (VBoolean true); SEC_Data [2]; SEC_AmqpValue (VBoolean false)]) /\
  message_of [SEC_Data [1]; SEC_AmqpValue (VBoolean true); SEC_Data [2]; SEC_AmqpValue (VBoolean false)] =
    set_value (set_body message_default (fun _ => MkBody [[1]; [2]] [] [] None)) (VBoolean false) /\
  message_decode Debug [0x00; 0x53; 0x75; 0xa0; 1; 1; 0x00; 0x53; 0x79; 0x41] = Err (EInvalidDescriptor (DUlong 0x79)).
Proof. split; [|split]; vm_compute; reflexivity. Qed.

(** ** C50 *)
(** The remainder returned is never the empty rest of the input but the bytes of the last section. *)
Theorem C50_remainder : forall md m, message_sendable m ->
  exists secs sec m' before, message_sections m = secs ++ [sec] /\ message_decode md (message_bytes m) = Ok (s_bytes section_S sec, m') /\
    s_bytes section_S sec <> [] /\ message_bytes m = before ++ s_bytes section_S sec.
Proof. exact message_remainder. Qed.
Print Assumptions C50_remainder.
Theorem C50_consumed_refuted : exists m r m', message_sendable m /\ message_decode Debug (message_bytes m) = Ok (r, m') /\
  r = message_bytes m /\ r <> [].
Proof. exact remainder_refuted. Qed.
Print Assumptions C50_consumed_refuted.
Example C50_example : exists m', message_decode Debug (message_bytes a_message) = Ok ([0x00; 0x53; 0x77; 0x80; 0; 0; 0; 0; 0; 0; 1; 44], m').
Proof. eexists. vm_compute. reflexivity. Qed.

(** ** C55 *)
(** The sections are written one after the other, in the order of [message_sections]. *)
Theorem C55_layout : forall m, message_valid m -> message_memo_ok m -> Forall (fun t => body_headers t = 0) (mb_messages (m_body m)) ->
  message_bytes m = concat (map (s_bytes section_S) (message_sections m)).
Proof. exact message_layout. Qed.
Print Assumptions C55_layout.
(** Each is encoded the way the standard says. *)
Theorem C55_conforms : forall m, message_sendable m -> exists parts, message_bytes m = concat parts /\
  Forall2 (s_wire section_S) (map (s_canon section_S) (message_sections m)) parts.
Proof. exact message_conforms. Qed.
Print Assumptions C55_conforms.
(** The order is that of the standard, which numbers the kinds of sections in that order. *)
Theorem C55_order : forall m, mb_messages (m_body m) = [] -> StronglySorted Z.le (map section_kind (message_sections m)).
Proof. exact sections_sorted. Qed.
Print Assumptions C55_order.
(** No section other than parts of the body occurs twice, and there is a body. *)
Theorem C55_once : forall m k, ~ body_kind k -> zlen (sections_of k m) <= 1.
Proof. exact at_most_once. Qed.
Print Assumptions C55_once.
Theorem C55_body : forall m, exists s, In s (message_sections m) /\ body_kind (section_kind s).
Proof. exact always_body. Qed.
Print Assumptions C55_body.
Example C55_example : message_valid a_message /\ message_memo_ok a_message /\
  map section_kind (message_sections a_message) = [0x70; 0x72; 0x73; 0x74; 0x75; 0x75; 0x77] /\
  message_bytes (MkMessage None None None None None None (Some [(SByteStr (s2b "f"), VNull)]) (MkBody [[1; 2]] [] [] None) 0) =
    [0x00; 0x53; 0x75; 0xa0; 2; 1; 2; 0x00; 0x53; 0x78; 0xc1; 5; 2; 0xa3; 1; 102; 0x40].
Proof.
  split; [|split; [split; [now left|constructor]|split; vm_compute; reflexivity]].
  repeat split; repeat constructor.
  all: try match goal with |- _ = _ => vm_compute; reflexivity | |- _ < _ => vm_compute; reflexivity | |- _ <= _ => vm_compute; discriminate end.
  - utf8 [107].
  - utf8 [120].
  - utf8 [116; 101; 120; 116; 47; 112; 108; 97; 105; 110].
  - utf8 [112].
  - utf8 [113].
Qed.

(** ** C56 *)
(** Each builder call changes what it names and nothing else. *)
Theorem C56_set_header : forall m h, sections_of 0x70 (set_header m h) = [SEC_Header h] /\ only_changed 0x70 m (set_header m h).
Proof. exact set_header_only. Qed.
Print Assumptions C56_set_header.
Theorem C56_set_properties : forall m f, sections_of 0x73 (set_properties m f) =
    [SEC_Properties (f match m_properties m with Some p => p | None => MkProperties None None None None None None None None None None None None None end)] /\
  only_changed 0x73 m (set_properties m f).
Proof. exact set_properties_only. Qed.
Print Assumptions C56_set_properties.
Theorem C56_set_app_property : forall m k v, only_changed 0x74 m (in_set_app_property m k v) /\ only_changed 0x74 m (out_set_app_property m k v).
Proof. exact (fun m k v => conj (in_app_only m k v) (out_app_only m k v)). Qed.
Print Assumptions C56_set_app_property.
Theorem C56_set_value : forall m v, message_value (set_value m v) = Some v /\ sections_of 0x77 (set_value m v) = [SEC_AmqpValue v] /\
  mb_data (m_body (set_value m v)) = mb_data (m_body m) /\ mb_sequence (m_body (set_value m v)) = mb_sequence (m_body m) /\
  mb_messages (m_body (set_value m v)) = mb_messages (m_body m) /\ only_body_changed m (set_value m v).
Proof. exact set_value_only. Qed.
Print Assumptions C56_set_value.
Theorem C56_set_body : forall m f, m_body (set_body m f) = f (m_body m) /\ only_body_changed m (set_body m f).
Proof. exact set_body_only. Qed.
Print Assumptions C56_set_body.
Theorem C56_set_data : forall b d, body_first_data (body_set_data b d) = Some d /\ mb_data (body_set_data b d) = [d] /\
  mb_sequence (body_set_data b d) = mb_sequence b /\ mb_messages (body_set_data b d) = mb_messages b /\ mb_value (body_set_data b d) = mb_value b.
Proof. exact set_data_only. Qed.
Print Assumptions C56_set_data.
Theorem C56_data : forall b d, body_first_data b = Some d <-> exists r, mb_data b = d :: r.
Proof. exact data_first. Qed.
Print Assumptions C56_data.
(** A message made from bytes or from messages. *)
Theorem C56_with_body : forall b, message_sections (with_body b) = [SEC_Data b] /\ m_message_format (with_body b) = None /\
  body_first_data (m_body (with_body b)) = Some b.
Proof. exact with_body_sections. Qed.
Print Assumptions C56_with_body.
Theorem C56_with_messages : forall l, l <> [] -> message_sections (with_messages l) = map (fun t => SEC_Data (payload t)) l /\
  m_message_format (with_messages l) = None /\ mb_messages (m_body (with_messages l)) = l.
Proof. exact with_messages_sections. Qed.
Print Assumptions C56_with_messages.
(** What a transfer carries: bytes, or a message, whose encoding, length and format it has. *)
Theorem C56_transfer_body : forall b m, payload (TBData b) = b /\ transfer_body_size (TBData b) = zlen b /\ transfer_body_message_format (TBData b) = None /\
  payload (TBMessageIn m) = message_bytes m /\ payload (TBMessageOut m) = message_bytes m /\
  transfer_body_size (TBMessageIn m) = message_size m /\ transfer_body_size (TBMessageOut m) = message_size m /\
  transfer_body_message_format (TBMessageIn m) = m_message_format m /\ transfer_body_message_format (TBMessageOut m) = m_message_format m.
Proof. exact transfer_body_carries. Qed.
Print Assumptions C56_transfer_body.
(** [update] and [if_some] apply the function given, to the same message with the memo reset; [if_some] without a value does nothing. *)
Theorem C56_update : forall m f T (x : T) g, update m f = f (set_size m 0) /\ if_some m (Some x) g = g (set_size m 0) x /\ if_some m (@None T) g = m /\
  message_sections (set_size m 0) = message_sections m /\ m_message_format (set_size m 0) = m_message_format m /\ m_size (set_size m 0) = 0.
Proof. exact update_applies. Qed.
Print Assumptions C56_update.
Example C56_example : let m := set_value (set_properties (set_header a_message (MkHeader false 4 None true 0)) (set_correlation_id (Some (MIUlong 1)))) (VUint 1) in
  map section_kind (message_sections m) = [0x70; 0x72; 0x73; 0x74; 0x75; 0x75; 0x77] /\ message_value m = Some (VUint 1) /\
  m_header m = Some (MkHeader false 4 None true 0) /\ option_map properties_correlation_id (m_properties m) = Some (Some (MIUlong 1)) /\
  option_map properties_message_id (m_properties m) = Some (Some (MIUlong 7)).
Proof. repeat split. Qed.
