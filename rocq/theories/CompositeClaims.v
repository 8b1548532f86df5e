(** The claims C17 to C22 and part of C14 as theorems: composite types and unions.  The field tables of the composite types,
    their codes and names are in CompositeSpec.v ([all_composites]).  Frames and [Transfer]: FrameClaims.v. *)

From Coq Require Import String.
From Verif Require Import Definitions Utf8Spec Valid Wire TypeSpec CompositeSpec CompositeFacts AllTypes AllTypesFacts CodecSpec CodecFacts
  ExactFacts CompositeReads.
Open Scope string_scope.
Open Scope list_scope.
Open Scope Z_scope.

Ltac utf8 l := exists l; split; [repeat (apply Forall_cons; [left; lia|]); apply Forall_nil|reflexivity].
Ltac listed := cbv [all_composites role_table In]; repeat (first [left; reflexivity|right]).

(** ** C14, the composites: the fields are read from the declared size, and what follows it is left over *)
Theorem C14_composite_window : forall K md inp rest v, In K all_composites -> bytes_ok inp ->
  decode (s_dec (composite_S K)) md inp = Ok (rest, v) ->
  exists label n hdr content, inp = 0x00 :: label ++ hdr ++ content ++ rest /\ wire_label (k_code K) (k_name K) label /\
    list_header md n (zlen content) hdr.
Proof. exact composite_window. Qed.
Print Assumptions C14_composite_window.
Example C14_composite_example : In close_K all_composites /\
  decode (s_dec (composite_S close_K)) Debug [0x00; 0x53; 0x18; 0xc0; 4; 1; 0x40; 1; 2; 0x77] = Ok ([0x77], MkClose None).
Proof. split; [listed|vm_compute; reflexivity]. Qed.

(** ** C17 *)
Theorem C17_composite_round_trip : forall K, In K all_composites -> forall md v rest,
  s_valid (composite_S K) v -> s_encodable (composite_S K) v -> s_size (composite_S K) v < 2 ^ 32 ->
  s_decodable (composite_S K) (s_canon (composite_S K) v) ->
  decode (s_dec (composite_S K)) md (s_bytes (composite_S K) v ++ rest) = Ok (rest, s_canon (composite_S K) v).
Proof. exact (fun K H => type_round_trip (composite_S K) (ty_composite K H)). Qed.
Print Assumptions C17_composite_round_trip.
Theorem C17_union_round_trip : forall T (S : tspec T) alts, union_type S alts -> forall md v rest,
  s_valid S v -> s_encodable S v -> s_size S v < 2 ^ 32 -> s_decodable S (s_canon S v) ->
  decode (s_dec S) md (s_bytes S v ++ rest) = Ok (rest, s_canon S v).
Proof. exact (@union_round_trip). Qed.
Print Assumptions C17_union_round_trip.
Definition C17_value : detach_t :=
  MkDetach 7 true (Some (MkError (EC_LinkError LinkError_Stolen) (Some (s2b "x")) None)).
Example C17_example : In detach_K all_composites /\ s_valid (composite_S detach_K) C17_value /\
  s_encodable (composite_S detach_K) C17_value /\ s_size (composite_S detach_K) C17_value < 2 ^ 32 /\
  s_decodable (composite_S detach_K) (s_canon (composite_S detach_K) C17_value) /\
  s_canon (composite_S detach_K) C17_value = C17_value /\
  s_bytes (composite_S detach_K) C17_value =
    [0x00; 0x53; 0x16; 0xc0; 32; 3; 0x52; 7; 0x41; 0x00; 0x53; 0x1d; 0xc0; 23; 3; 0xa3; 16] ++ s2b "amqp:link:stolen" ++
    [0xa1; 1; 120; 0x40].
Proof.
  split; [listed|]. split.
  { repeat split; try lia; try (vm_compute; reflexivity).
    - discriminate.
    - utf8 [120]. }
  split; [repeat split|]. split; [vm_compute; reflexivity|]. split; [repeat split|]. split; vm_compute; reflexivity.
Qed.

(** ** C18 *)
Theorem C18_layout : forall K v, In K all_composites -> s_valid (composite_S K) v -> s_encodable (composite_S K) v ->
  s_size (composite_S K) v < 2 ^ 32 ->
  exists encs, zlen encs = field_count (k_fields K) /\
    wire_fields (k_fields K) (canon_fields (k_fields K) (k_to K v)) encs /\
    s_bytes (composite_S K) v = 0x00 :: 0x53 :: k_code K :: emitted_list (field_count (k_fields K)) (concat encs).
Proof. exact composite_layout. Qed.
Print Assumptions C18_layout.
Example C18_example : s_bytes (composite_S begin_K) (MkBegin None 1 2 3 4 None None None) =
  [0x00; 0x53; 0x11; 0xc0; 13; 8; 0x40; 0x52; 1; 0x52; 2; 0x52; 3; 0x52; 4; 0x40; 0x40; 0x40] /\ field_count (k_fields begin_K) = 8.
Proof. split; vm_compute; reflexivity. Qed.

(** ** C19, C20: any number of trailing fields left out, nulls for absent values and defaults, more elements than fields, and
    unread bytes inside the declared size *)
Theorem C19_C20_reads : forall K md v label encs n junk bs rest, In K all_composites -> wire_label (k_code K) (k_name K) label ->
  wire_fields (k_fields K) (k_to K v) encs -> each_field (@s_decodable) (k_fields K) (k_to K v) ->
  n = zlen encs \/ (zlen encs = field_count (k_fields K) /\ zlen encs <= n) ->
  wire_list n (concat encs ++ junk) bs -> decode (s_dec (composite_S K)) md (0x00 :: label ++ bs ++ rest) = Ok (rest, v).
Proof. exact composite_reads. Qed.
Print Assumptions C19_C20_reads.
(** An attach with three of fourteen fields: the others get None or the defaults of the standard; and one element too many. *)
Example C19_example :
  decode (s_dec (composite_S attach_K)) Debug [0x00; 0x53; 0x12; 0xc0; 7; 3; 0xa1; 1; 97; 0x52; 5; 0x41; 0x99] =
    Ok ([0x99], MkAttach (s2b "a") 5 Role_Receiver SenderSettleMode_Mixed ReceiverSettleMode_First None None None false None None None None None) /\
  wire_fields (k_fields attach_K)
    (k_to attach_K (MkAttach (s2b "a") 5 Role_Receiver SenderSettleMode_Mixed ReceiverSettleMode_First None None None false None None None None None))
    [[0xa1; 1; 97]; [0x52; 5]; [0x41]] /\
  decode (s_dec (composite_S received_K)) Debug [0x00; 0x53; 0x23; 0xc0; 6; 3; 0x43; 0x53; 9; 0xa1; 0; 0x99] = Ok ([0x99], MkReceived 0 9).
Proof.
  split; [vm_compute; reflexivity|]. split; [|vm_compute; reflexivity].
  cbn [wire_fields k_fields attach_K k_to fst snd s_wire].
  repeat split; try lia.
  - utf8 [97].
  - exact (WV_8 0xa1 0xb1 [97] eq_refl).
  - apply (WU_8 5). lia.
  - exists true. split; [listed|constructor].
Qed.
Theorem C19_missing_mandatory : forall K md label encs junk bs rest name, In K all_composites -> wire_label (k_code K) (k_name K) label ->
  field_missing (k_fields K) encs name -> wire_list (zlen encs) (concat encs ++ junk) bs ->
  decode (s_dec (composite_S K)) md (0x00 :: label ++ bs ++ rest) = Err (ERequiredFieldOmitted name).
Proof. exact composite_missing. Qed.
Print Assumptions C19_missing_mandatory.
Theorem C19_null_mandatory : forall K md label encs junk n bs rest, In K all_composites -> wire_label (k_code K) (k_name K) label ->
  null_mandatory (k_fields K) encs -> zlen encs <= n -> wire_list n (concat encs ++ junk) bs ->
  decode (s_dec (composite_S K)) md (0x00 :: label ++ bs ++ rest) = Err (EInvalidFormatCode 0x40).
Proof. exact composite_null. Qed.
Print Assumptions C19_null_mandatory.
Example C19_missing_example :
  field_missing (k_fields begin_K) [[0x40]; [0x52; 1]] "incoming_window" /\
  decode (s_dec (composite_S begin_K)) Debug [0x00; 0x53; 0x11; 0xc0; 4; 2; 0x40; 0x52; 1] = Err (ERequiredFieldOmitted "incoming_window") /\
  null_mandatory (k_fields begin_K) [[0x40]; [0x40]] /\
  decode (s_dec (composite_S begin_K)) Debug [0x00; 0x53; 0x11; 0xc0; 3; 2; 0x40; 0x40] = Err (EInvalidFormatCode 0x40).
Proof.
  split.
  { cbn [field_missing k_fields begin_K]. split; [now left|]. split; [|reflexivity]. exists 1.
    split; [apply (WU_8 1); lia|exact I]. }
  split; [vm_compute; reflexivity|]. split; [|vm_compute; reflexivity].
  cbn [null_mandatory k_fields begin_K]. split; now left.
Qed.

(** ** C21 *)
Theorem C21_labels_interchangeable : forall K md label label' r, In K all_composites -> wire_label (k_code K) (k_name K) label ->
  wire_label (k_code K) (k_name K) label' ->
  decode (s_dec (composite_S K)) md (0x00 :: label ++ r) = decode (s_dec (composite_S K)) md (0x00 :: label' ++ r).
Proof. exact (fun K md l l' r H W W' => eq_trans (composite_labelled K md l r H W) (eq_sym (composite_labelled K md l' r H W'))). Qed.
Print Assumptions C21_labels_interchangeable.
Theorem C21_other_descriptors : forall K md label d rest, In K all_composites -> wire_descriptor d label -> d <> DUlong 0 ->
  ~ names (composite_D K) d -> decode (s_dec (composite_S K)) md (0x00 :: label ++ rest) = Err (EInvalidDescriptor d).
Proof. exact composite_other. Qed.
Print Assumptions C21_other_descriptors.
Example C21_example : wire_label (k_code accepted_K) (k_name accepted_K) ([0xa3; 18] ++ s2b "amqp:accepted:list") /\
  wire_label (k_code accepted_K) (k_name accepted_K) [0x80; 0; 0; 0; 0; 0; 0; 0; 0x24] /\
  decode (s_dec (composite_S accepted_K)) Debug ([0x00; 0xa3; 18] ++ s2b "amqp:accepted:list" ++ [0x45]) = Ok ([], MkAccepted) /\
  decode (s_dec (composite_S accepted_K)) Debug [0x00; 0x53; 0x26; 0x45] = Err (EInvalidDescriptor (DUlong 0x26)).
Proof.
  split. { right. split; [let l := eval compute in (s2b "amqp:accepted:list") in utf8 l|]. exact (WV_8 0xa3 0xb3 (s2b "amqp:accepted:list") eq_refl). }
  split. { left. exact (WUL_64 0x24 ltac:(lia)). }
  split; vm_compute; reflexivity.
Qed.

(** ** C22 *)
Theorem C22_named : forall T (S : tspec T) alts, union_type S alts -> forall md a label r, In a alts ->
  wire_label (d_code (a_D a)) (d_name (a_D a)) label ->
  decode (s_dec S) md (0x00 :: label ++ r) = map_res (a_inj a) (d_inner (a_D a) md r).
Proof. exact (@union_named). Qed.
Print Assumptions C22_named.
Theorem C22_other : forall T (S : tspec T) alts, union_type S alts -> forall md d label r, wire_descriptor d label -> d <> DUlong 0 ->
  Forall (fun a => ~ names (a_D a) d) alts -> decode (s_dec S) md (0x00 :: label ++ r) = Err (EInvalidDescriptor d).
Proof. exact (@union_other). Qed.
Print Assumptions C22_other.
Theorem C22_every_value_has_one_alternative : forall T (S : tspec T) alts, union_type S alts ->
  (forall v, exists a x, In a alts /\ v = a_inj a x) /\
  (forall a b x y, In a alts -> In b alts -> a_inj a x = a_inj b y -> a = b).
Proof. exact (fun T S alts U => conj (union_covers S alts U) (union_unique S alts U)). Qed.
Print Assumptions C22_every_value_has_one_alternative.
Example C22_example :
  decode (s_dec delivery_state_S) Debug [0x00; 0x53; 0x26; 0x45] = Ok ([], DS_Released MkReleased) /\
  decode (s_dec outcome_S) Debug [0x00; 0x53; 0x23; 0x45] = Err (EInvalidDescriptor (DUlong 0x23)).
Proof. split; vm_compute; reflexivity. Qed.
