(** C76: the functions that read the fields of a received struct.  [told], [kept] and the functions of each struct
    ([struct_impl]) are in AccessorSpec.v, the tables of fields in CompositeSpec.v and FrameSpec.v. *)

From Coq Require Import String.
From Verif Require Import Io BaseFacts Accessors Template Utf8Spec Utf8Facts Valid Wire TypeSpec CompositeSpec AllTypes CodecSpec MessageSpec FrameSpec GenSpec
  AccessorSpec AccessorFacts.
Open Scope string_scope.
Open Scope list_scope.
Open Scope Z_scope.

(** Every struct has one function for each field, with the name of the field, and no name is used twice. *)
Theorem C76_every_struct : forall K, In K all_composites ->
  (exists L, struct_impl K L) /\ (forall L, struct_impl K L -> function_names (k_fields K) L = field_names (k_fields K)) /\
  NoDup (field_names (k_fields K)).
Proof. exact every_struct. Qed.
Print Assumptions C76_every_struct.
(** Whatever encoding of its fields a struct is read from, each function gives the value encoded for the field of its name. *)
Theorem C76_told : forall K L md v label encs n junk bs rest, struct_impl K L -> wire_label (k_code K) (k_name K) label ->
  wire_fields (k_fields K) (k_to K v) encs -> each_field (@s_decodable) (k_fields K) (k_to K v) ->
  n = zlen encs \/ (zlen encs = field_count (k_fields K) /\ zlen encs <= n) ->
  wire_list n (concat encs ++ junk) bs ->
  exists w, decode (s_dec (composite_S K)) md (0x00 :: label ++ bs ++ rest) = Ok (rest, w) /\ told w (k_fields K) L encs.
Proof. exact accessors_told. Qed.
Print Assumptions C76_told.
(** What it gives at the receiver is what it gives at the sender. *)
Theorem C76_kept : forall K L md v rest, struct_impl K L ->
  s_valid (composite_S K) v -> s_encodable (composite_S K) v -> s_size (composite_S K) v < 2 ^ 32 ->
  s_decodable (composite_S K) (s_canon (composite_S K) v) ->
  exists w, decode (s_dec (composite_S K)) md (s_bytes (composite_S K) v ++ rest) = Ok (rest, w) /\ kept v w (k_fields K) L.
Proof. exact accessors_kept. Qed.
Print Assumptions C76_kept.
(** A detach of link 7 with [closed] left out, and the functions of one that is closed, with an error or without. *)
Example C76_case : struct_impl detach_K detach_accessors /\ field_names (k_fields detach_K) = ["handle"; "closed"; "error"] /\
  decode (s_dec (composite_S detach_K)) Debug [0x00; 0x53; 0x16; 0xc0; 3; 1; 0x52; 7; 0x99] = Ok ([0x99], MkDetach 7 false None) /\
  told (MkDetach 7 false None) (k_fields detach_K) detach_accessors [[0x52; 7]] /\
  ~ told (MkDetach 7 true None) (k_fields detach_K) detach_accessors [[0x52; 7]] /\
  (forall e, detach_get_handle (MkDetach 7 true e) = 7 /\ detach_get_closed (MkDetach 7 true e) = true /\ detach_get_error (MkDetach 7 true e) = e).
Proof.
  split; [constructor|]. split; [reflexivity|]. split; [vm_compute; reflexivity|]. split; [|split; [|easy]].
  - split; [exact (WU_8 7 ltac:(lia))|]. easy.
  - intros (_ & H & _). discriminate H.
Qed.

(** A transfer: its fields, and [body], which gives the payload. *)
Theorem C76_transfer_told : forall md r label encs bs p, wire_label 0x14 "amqp:transfer:list" label ->
  wire_fields transfer_table r encs -> each_field (@s_decodable) transfer_table r -> wire_list (zlen encs) (concat encs) bs ->
  exists w, frame_decode md (0x00 :: label ++ bs ++ p) = Ok ([], FR_Transfer w) /\
    told w transfer_table transfer_accessors encs /\ acc_get transfer_body_accessor w = received_payload p.
Proof. exact transfer_told. Qed.
Print Assumptions C76_transfer_told.
Theorem C76_transfer_kept : forall md v, frame_sendable (FR_Transfer v) ->
  exists w, frame_decode md (frame_bytes (FR_Transfer v)) = Ok ([], FR_Transfer w) /\
    kept v w transfer_table transfer_accessors /\ acc_get transfer_body_accessor w = received_payload (transfer_payload v).
Proof. exact transfer_kept. Qed.
Print Assumptions C76_transfer_kept.
Theorem C76_transfer_names : function_names transfer_table transfer_accessors = field_names transfer_table /\
  NoDup (acc_name transfer_body_accessor :: field_names transfer_table).
Proof. exact transfer_names. Qed.
Print Assumptions C76_transfer_names.
Example C76_transfer_case : exists v, frame_decode Release [0x00; 0x53; 0x14; 0xc0; 5; 3; 0x43; 0x52; 9; 0x40; 1; 2] = Ok ([], FR_Transfer v) /\
  transfer_get_handle v = 0 /\ transfer_get_delivery_id v = Some 9 /\ transfer_get_delivery_tag v = None /\ transfer_get_more v = false /\
  transfer_get_body v = Some (TBData [1; 2]) /\ zlen (field_names transfer_table) = 11.
Proof. eexists. split; [vm_compute; reflexivity|]. repeat match goal with |- _ /\ _ => split end; reflexivity. Qed.

(** The same for any table of fields given to the template, and the functions of the crate are those that it gives. *)
Theorem C76_template_told : forall R code name (F : fields R) md a label encs bs rest, generated (composite_S (list_K code name F)) ->
  wire_label code name label -> wire_fields F a encs -> each_field (@s_decodable) F a -> wire_list (zlen encs) (concat encs) bs ->
  let L := functions_of F (template_accessors (code_of F) (fun self => self)) in
  exists w, decode (c_D (template_list code name (code_of F))) md (0x00 :: label ++ bs ++ rest) = Ok (rest, w) /\
    told w F L encs /\ function_names F L = field_names F.
Proof. exact generated_told. Qed.
Print Assumptions C76_template_told.
Theorem C76_from_template :
  (forall K L, struct_impl K L -> L = functions_of (k_fields K) (template_accessors (code_of (k_fields K)) (k_to K))) /\
  transfer_accessors = functions_of transfer_table (template_accessors (code_of transfer_table) transfer_to) /\
  transfer_body_accessor = template_body_accessor transfer_body_f.
Proof. exact (conj impl_template (conj transfer_impl eq_refl)). Qed.
Print Assumptions C76_from_template.
Definition point := FReq "x" u32_S (FDef "y" u32_S 5 FNil).
Example C76_template_case : generated (composite_S (list_K 0x80 "x:point:list" point)) /\
  decode (c_D (template_list 0x80 "x:point:list" (code_of point))) Debug [0x00; 0x53; 0x80; 0xc0; 3; 1; 0x52; 7; 0x99] = Ok ([0x99], (7, (5, tt))) /\
  told (7, (5, tt)) point (template_accessors (code_of point) (fun self => self)) [[0x52; 7]].
Proof.
  split; [|split; [vm_compute; reflexivity|]].
  - apply gn_list; [lia|reflexivity|]. apply gf_req; [apply gn_type; constructor|].
    apply gf_def; [apply gn_type; constructor|cbn; intuition discriminate|cbn; unfold between; lia|constructor].
  - split; [exact (WU_8 7 ltac:(lia))|]. easy.
Qed.
