(** The code generator: claims. *)

From Coq Require Import String.
From Verif Require Import Io Codegen SpecJson Template Utf8Spec Utf8Facts Valid Wire TypeSpec CompositeSpec AllTypes CodecSpec MessageSpec FrameSpec
  GenSpec NameFacts TemplateFacts GenFacts SpecFacts JsonFacts.
Open Scope string_scope.
Open Scope list_scope.
Open Scope Z_scope.

(** ** C60: the specification file *)
Theorem C60_specification : forall upper, exists D, parse upper specification = GOk D /\
  Forall (struct_follows D) (df_lists D) /\
  (forall K, In K all_composites -> exists l, In l (df_lists D) /\ list_follows D l K) /\
  Forall (fun e => exists T (S : tspec T) values, enum_follows e S values) (df_enums D) /\
  (forall T B (S : tspec T) (w : B -> bytes -> Prop) table name, enumeration S w table name ->
    exists e, In e (df_enums D) /\ enum_follows e S (map fst table)) /\
  Forall (fun a => exists T (S : tspec T), rust_type D (al_name a) S) (df_aliases D) /\
  Forall (union_follows D) (df_provides D) /\
  map pe_name (df_provides D) =
    map s2b ["ErrorCondition"; "Frame"; "SaslFrameBody"; "MessageId"; "Section"; "DeliveryState"; "Outcome"] /\
  Forall (fun l => exists n s, de_name (ds_descriptor l) = s2b "amqp:" ++ n ++ s2b ":" ++ s /\ titled n (ds_name l))
    (df_lists D ++ df_described_restricted D) /\
  NoDup (map al_name (df_aliases D) ++ map en_name (df_enums D) ++ map ds_name (df_lists D) ++
    map ds_name (df_described_restricted D) ++ map pe_name (df_provides D)).
Proof.
  exact (fun upper => ex_intro _ D0 (conj (parsed upper) (conj all_structs (conj all_composites_from (conj all_enums
    (conj (@enumerations_from) (conj all_aliases (conj all_unions (conj union_names (conj named_after names_distinct)))))))))).
Qed.
Print Assumptions C60_specification.
Example C60_case : exists l, In l (df_lists D0) /\ ds_name l = s2b "Attach" /\ zlen (ds_fields l) = 14 /\ list_follows D0 l attach_K.
Proof. exists (L 3). split; [apply at_list; bound|]. split; [reflexivity|]. split; [reflexivity|exact list_3]. Qed.

(** ** C61: the template *)
Theorem C61_generated_code : forall T (S : tspec T), generated S -> forall v, s_valid S v ->
  s_size S v = zlen (s_bytes S v) /\
  forall md rest, s_encodable S v -> s_size S v < 2 ^ 32 -> s_decodable S (s_canon S v) ->
    decode (s_dec S) md (s_bytes S v ++ rest) = Ok (rest, s_canon S v).
Proof. exact (fun T S G v V => conj (generated_size S G v V) (fun md rest => generated_round_trip S G md v rest V)). Qed.
Print Assumptions C61_generated_code.
Theorem C61_generated_decoder : forall T (S : tspec T), generated S -> forall md v bs rest, s_wire S v bs -> s_decodable S v ->
  decode (s_dec S) md (bs ++ rest) = Ok (rest, v).
Proof. exact @generated_accepts. Qed.
Print Assumptions C61_generated_decoder.

(** A struct, an enumeration in it and a union of two structs, none of them in the crate. *)
Definition colours : tspec Z := numbered_S (template_value_enum "Colour" u8_C Z.eqb 0 [3; 1; 4]) [0x50] wire_ubyte [3; 1; 4].
Definition paint_fields := FReq "colour" colours (FOpt "remark" bstr_S (FDef "layers" u32_S 2 FNil)).
Definition paints : list (alternative (sum (Z * (option bytes * (Z * unit))) (Z * (option bytes * (Z * unit))))) :=
  [MkAlt (composite_D (list_K 0x80 "x:paint:list" paint_fields)) inl (fun v => match v with inl x => Some x | _ => None end);
   MkAlt (composite_D (list_K 0x81 "x:varnish:list" paint_fields)) inr (fun v => match v with inr x => Some x | _ => None end)].
Example C61_generated_case : generated (union_S (template_union (map option_of paints)) paints) /\
  let S := union_S (template_union (map option_of paints)) paints in
  let v := inr (2, (Some [0x68; 0x69], (300, tt))) in
  s_valid S v /\ s_encodable S v /\ s_size S v < 2 ^ 32 /\ s_decodable S (s_canon S v) /\
  s_bytes S v = [0x00; 0x53; 0x81; 0xc0; 0x0c; 0x03; 0x50; 0x04; 0xa1; 0x02; 0x68; 0x69; 0x70; 0x00; 0x00; 0x01; 0x2c].
Proof.
  assert (G : generated_fields paint_fields).
  { apply gf_req; [apply gn_ubytes; [|repeat constructor; easy]|].
    - repeat (apply NoDup_cons; [cbn; intuition discriminate|]). apply NoDup_nil.
    - apply gf_opt; [apply gn_type; constructor|cbn; intuition discriminate|].
      apply gf_def; [apply gn_type; constructor|cbn; intuition discriminate|cbn; unfold between; lia|constructor]. }
  split.
  - apply gn_union.
    + repeat (apply NoDup_cons; [cbn; intuition discriminate|]). apply NoDup_nil.
    + repeat (apply NoDup_cons; [vm_compute; intuition discriminate|]). apply NoDup_nil.
    + repeat (apply Forall_cons; [intros [v|v] x; cbn; split; intros E; try discriminate E; now injection E as ->|]). apply Forall_nil.
    + repeat (constructor; try reflexivity).
    + apply go_list; [lia|reflexivity|exact G|]. apply go_list; [lia|reflexivity|exact G|]. apply go_nil.
  - cbv zeta. split; [|split; [|split; [|split]]].
    + change (each_field (@s_valid) paint_fields (2, (Some [0x68; 0x69], (300, tt)))). cbn [each_field paint_fields opt_prop fst snd].
      split; [vm_compute; split; congruence|]. split; [apply utf8_valid_spec; [repeat constructor; lia|reflexivity]|]. split; [vm_compute; split; congruence|exact I].
    + change (each_field (@s_encodable) paint_fields (2, (Some [0x68; 0x69], (300, tt)))). now repeat split.
    + reflexivity.
    + change (each_field (@s_decodable) paint_fields (2, (Some [0x68; 0x69], (300, tt)))). now repeat split.
    + reflexivity.
Qed.

(** The types of the crate are what the template gives for their tables. *)
Theorem C61_crate_structs : forall K, In K all_composites ->
  same_code (k_to K) (k_of K) (k_codec K) (template_list (k_code K) (k_name K) (code_of (k_fields K))) /\
  (forall md inp, k_inner K md inp = map_res (k_of K) (template_inner (code_of (k_fields K)) md inp)).
Proof. exact composite_template. Qed.
Print Assumptions C61_crate_structs.
Theorem C61_crate_transfer :
  same_code transfer_split transfer_joined transfer_C (template_transfer 0x14 "amqp:transfer:list" (code_of transfer_table)) /\
  (forall md inp, decode_transfer_inner md inp = map_res transfer_joined (template_transfer_inner (code_of transfer_table) md inp)).
Proof. exact transfer_template. Qed.
Print Assumptions C61_crate_transfer.
Theorem C61_crate_unions :
  same_code (fun v => v) (fun v => v) delivery_state_C (template_union (map option_of delivery_state_alts)) /\
  same_code (fun v => v) (fun v => v) outcome_C (template_union (map option_of outcome_alts)) /\
  same_code (fun v => v) (fun v => v) sasl_frame_body_C (template_union (map option_of sasl_frame_body_alts)) /\
  same_code (fun v => v) (fun v => v) section_C (template_union (map option_of section_alts)).
Proof. exact unions_template. Qed.
Print Assumptions C61_crate_unions.
Theorem C61_crate_sections :
  section_D 0x71 "amqp:delivery-annotations:map" fields_S delivery_annotations_size delivery_annotations_enc decode_delivery_annotations_inner
    = restricted_D 0x71 "amqp:delivery-annotations:map" fields_S /\
  section_D 0x72 "amqp:message-annotations:map" fields_S message_annotations_size message_annotations_enc decode_message_annotations_inner
    = restricted_D 0x72 "amqp:message-annotations:map" fields_S /\
  section_D 0x74 "amqp:application-properties:map" string_variant_map_S application_properties_size application_properties_enc
    decode_application_properties_inner = restricted_D 0x74 "amqp:application-properties:map" string_variant_map_S /\
  section_D 0x75 "amqp:data:binary" bin_S data_size data_enc decode_data_inner = restricted_D 0x75 "amqp:data:binary" bin_S /\
  section_D 0x76 "amqp:amqp-sequence:list" list_S amqp_sequence_size amqp_sequence_enc decode_amqp_sequence_inner
    = restricted_D 0x76 "amqp:amqp-sequence:list" list_S /\
  section_D 0x77 "amqp:amqp-value:*" variant_S amqp_value_size amqp_value_enc decode_amqp_value_inner
    = restricted_D 0x77 "amqp:amqp-value:*" variant_S /\
  section_D 0x78 "amqp:footer:map" fields_S footer_size footer_enc decode_footer_inner = restricted_D 0x78 "amqp:footer:map" fields_S.
Proof. exact restricted_template. Qed.
Print Assumptions C61_crate_sections.
Theorem C61_crate_enumerations : forall T B (S : tspec T) (w : B -> bytes -> Prop) table name, enumeration S w table name ->
  exists number C, enumeration_code name w (map snd table) C /\
    (forall i v b, nth_error table i = Some (v, b) -> number v = Z.of_nat i) /\ (forall v, exists b, In (v, b) table) /\
    same_enumeration number (s_codec S) C.
Proof. exact @enumerations_template. Qed.
Print Assumptions C61_crate_enumerations.
Example C61_crate_case : In attach_K all_composites /\ template_count (code_of (k_fields attach_K)) = 14 /\
  enumeration sender_settle_mode_S wire_ubyte sender_settle_mode_table "SenderSettleMode".
Proof. split; [unfold all_composites; at_in 0|]. split; [reflexivity|constructor]. Qed.

(** The limits: [encoded_size] counts three bytes for the descriptor and two for the header of a symbol, whatever they are. *)
Theorem C61_struct_size : forall R code name (F : fields R) a,
  0 <= code -> field_count F < 2 ^ 32 -> generated_fields F -> each_field (@s_valid) F a ->
  e_size (c_E (template_list code name (code_of F))) a =
  zlen (wbytes (e_enc (c_E (template_list code name (code_of F))) a)) + (if code =? 0 then 1 else if code <? 256 then 0 else -7).
Proof. exact @list_size_at. Qed.
Print Assumptions C61_struct_size.
Theorem C61_enumeration_size : forall name items i, 0 <= i < zlen items ->
  e_size (c_E (template_symbol_enum name items)) i =
  zlen (wbytes (e_enc (c_E (template_symbol_enum name items)) i)) + (if zlen (item [] items i) <? 256 then 0 else -3).
Proof. exact symbol_size_at. Qed.
Print Assumptions C61_enumeration_size.
(** Hence the size is wrong for a struct with a code of more than one byte, which the generator does not refuse. *)
Theorem C61_long_code_refuted : exists code name, code_text (s2b "0x0:0x100") 0 code /\
  e_size (c_E (template_list code name (code_of FNil))) tt < zlen (wbytes (e_enc (c_E (template_list code name (code_of FNil))) tt)).
Proof.
  exists 256, "x". split; [|vm_compute; reflexivity]. refine (proj2 (proj1 (descr_spec (MkRawDescriptor [] _) (MkDescr [] 0 256)) _)). vm_compute. reflexivity.
Qed.
Print Assumptions C61_long_code_refuted.
Theorem C61_long_symbol_refuted : exists name items i, 0 <= i < zlen items /\
  e_size (c_E (template_symbol_enum name items)) i < zlen (wbytes (e_enc (c_E (template_symbol_enum name items)) i)).
Proof. exists "x", [repeat 97 300], 0. vm_compute. repeat split; discriminate. Qed.
Print Assumptions C61_long_symbol_refuted.

(** ** C62: names *)
Theorem C62_type_name : forall n t, titled n t <-> t = camel_case n.
Proof. exact titled_camel. Qed.
Print Assumptions C62_type_name.
Theorem C62_type_name_distinct : forall ws vs, Forall plain_word ws -> Forall plain_word vs ->
  camel_case (joined 45 ws) = camel_case (joined 45 vs) -> ws = vs.
Proof. exact camel_injective. Qed.
Print Assumptions C62_type_name_distinct.
Theorem C62_member_name : forall upper n t, member_name upper n t <-> t = snake_case upper n.
Proof. exact member_snake. Qed.
Print Assumptions C62_member_name.
Theorem C62_field_name : forall upper ws, Forall plain_word ws ->
  snake_case upper (joined 45 ws) = joined 95 ws ++ (if list_eq_dec Z.eq_dec (joined 45 ws) (s2b "type") then [95]
    else if list_eq_dec Z.eq_dec (joined 45 ws) (s2b "return") then [95] else []).
Proof. exact snake_plain. Qed.
Print Assumptions C62_field_name.
Theorem C62_function_name : forall upper ws, Forall plain_word ws -> (forall a w v b, ws = a ++ w :: v :: b -> 2 <= zlen w) ->
  snake_case upper (camel_case (joined 45 ws)) = joined 95 ws.
Proof. exact snake_camel. Qed.
Print Assumptions C62_function_name.
Example C62_case : Forall plain_word [s2b "sasl"; s2b "init"] /\ camel_case (s2b "sasl-init") = s2b "SaslInit" /\
  (forall upper, snake_case upper (s2b "SaslInit") = s2b "sasl_init") /\ s2b "sasl-init" = joined 45 [s2b "sasl"; s2b "init"].
Proof.
  split; [|repeat split]. repeat (apply Forall_cons; [eexists; eexists; split; [reflexivity|split; [vm_compute; split; discriminate|]]|]).
  all: repeat (first [apply Forall_nil | apply Forall_cons; [left; vm_compute; split; discriminate|]]).
Qed.
(** Other names can collide. *)
Theorem C62_type_name_refuted : exists a b, a <> b /\ camel_case a = camel_case b.
Proof. exists (s2b "link-error"), (s2b "linkError"). split; [discriminate|reflexivity]. Qed.
Print Assumptions C62_type_name_refuted.
Theorem C62_function_name_refuted : exists ws, Forall plain_word ws /\ forall upper, snake_case upper (camel_case (joined 45 ws)) <> joined 95 ws.
Proof.
  exists [s2b "x"; s2b "mode"]. split; [|intros upper; vm_compute; discriminate].
  repeat (apply Forall_cons; [eexists; eexists; split; [reflexivity|split; [vm_compute; split; discriminate|]]|]).
  all: repeat (first [apply Forall_nil | apply Forall_cons; [left; vm_compute; split; discriminate|]]).
Qed.
Print Assumptions C62_function_name_refuted.

(** ** C63: one definition for each type *)
Theorem C63_definitions : forall upper types D, definitions_from upper types = GOk D ->
  exists structs enums kinds P, Forall2 titled (structs_of types) structs /\ Forall2 titled (enums_of types) enums /\
    Forall2 kind_of types kinds /\ generates upper structs enums kinds (df_aliases D) (df_enums D) (df_lists D) (df_described_restricted D) P /\
    unions_for P (df_provides D).
Proof. exact definitions_spec. Qed.
Print Assumptions C63_definitions.
Definition small_types : list raw_type :=
  [TAlias (MkRawAlias (s2b "paint-no") (s2b "uint") None);
   TAlias (MkRawAlias (s2b "paint-map") (s2b "map") None);
   TChoice (MkRawEnum (s2b "colour") (s2b "ubyte") None [MkEnumItem (s2b "dark-red") (s2b "3") 0]);
   TDescribed (MkRawDescribed (s2b "paint") (s2b "composite") (s2b "list") (Some (s2b " coat , ")) (MkRawDescriptor (s2b "x:paint:list") (s2b "0x1:0x80"))
     [MkRawField (s2b "no") (s2b "paint-no") true None false None; MkRawField (s2b "tint") (s2b "colour") false (Some (s2b "dark-red")) false None]);
   TDescribed (MkRawDescribed (s2b "label") (s2b "restricted") (s2b "binary") (Some (s2b "coat")) (MkRawDescriptor (s2b "x:label:binary") (s2b "0x1:0x81")) [])].
Example C63_case : forall upper, definitions_from upper small_types = GOk (MkDefinitions
  [MkAlias (s2b "PaintNo") (s2b "u32") []]
  [MkEnum (s2b "Colour") (s2b "u8") [] [MkEnumItem (s2b "DarkRed") (s2b "3") 1] false]
  [MkDescribed (s2b "Paint") [] [s2b "Coat"] (MkDescr (s2b "x:paint:list") 1 128)
     [MkField (s2b "no") (s2b "PaintNo") false false false [] false;
      MkField (s2b "tint") (s2b "Colour") false false false (s2b "Colour::DarkRed") false] false]
  [MkDescribed (s2b "Label") (s2b "Bytes") [s2b "Coat"] (MkDescr (s2b "x:label:binary") 1 129) [] false]
  [MkProvidesEnum (s2b "Coat") true [MkProvidesItem (s2b "Paint") (MkDescr (s2b "x:paint:list") 1 128);
     MkProvidesItem (s2b "Label") (MkDescr (s2b "x:label:binary") 1 129)]]).
Proof. intros upper. vm_compute. reflexivity. Qed.

(** ** C64: when the generator stops *)
Theorem C64_stops : forall upper types,
  ((exists D, definitions_from upper types = GOk D) <-> Forall type_readable types) /\ definitions_from upper types <> GErr.
Proof. exact (fun upper types => conj (definitions_ok upper types) (definitions_err upper types)). Qed.
Print Assumptions C64_stops.
Example C64_case : Forall type_readable small_types /\ forall upper,
  definitions_from upper [TDescribed (MkRawDescribed (s2b "p") (s2b "composite") (s2b "list") None (MkRawDescriptor (s2b "p") (s2b "0x80")) [])] = GPanic GPIndex.
Proof. split; [|reflexivity]. apply (C64_stops (fun _ => false)). eexists. apply C63_case. Qed.
(** A field is never given [is_str]. *)
Theorem C64_no_strings : forall upper refs enums f, fi_is_str (field_from upper refs enums f) = false.
Proof. exact not_str. Qed.
Print Assumptions C64_no_strings.
(** What the generator cannot handle it leaves out without a word: a described type that is neither a list nor restricted; *)
Theorem C64_dropped_refuted : exists d, code_readable (rd_code (rl_descriptor d)) /\ rl_source d = s2b "map" /\
  forall upper, definitions_from upper [TDescribed d] = GOk (MkDefinitions [] [] [] [] []).
Proof.
  exists (MkRawDescribed (s2b "p") (s2b "composite") (s2b "map") None (MkRawDescriptor (s2b "p") (s2b "0x0:0x80")) []).
  split; [|split; reflexivity]. apply descr_readable. eexists. vm_compute. reflexivity.
Qed.
Print Assumptions C64_dropped_refuted.
(** and a described type with a flaw in one of its fields is taken for an alias. *)
Definition flawed : json := JObj
  [(s2b "name", JStr (s2b "p")); (s2b "class", JStr (s2b "composite")); (s2b "source", JStr (s2b "list"));
   (s2b "descriptor", JObj [(s2b "name", JStr (s2b "x:p:list")); (s2b "code", JStr (s2b "0x0:0x80"))]);
   (s2b "field", JArr [JObj [(s2b "name", JStr (s2b "f")); (s2b "type", JStr (s2b "uint")); (s2b "mandatory", JBool true)]])].
Theorem C64_flaw_refuted : exists entries d fields, flawed = JObj entries /\ In (s2b "descriptor", d) entries /\ In (s2b "field", JArr fields) entries /\
  forall upper, parse upper (JArr [flawed]) = GOk (MkDefinitions [MkAlias (s2b "P") (s2b "List") []] [] [] [] []).
Proof. eexists. eexists. eexists. split; [reflexivity|]. split; [at_in 0|]. split; [at_in 0|]. intros upper. vm_compute. reflexivity. Qed.
Print Assumptions C64_flaw_refuted.

(** ** C65: reading the specification file *)
Theorem C65_parse : forall upper j,
  (exists types, reads_list reads_type j types /\ parse upper j = definitions_from upper types) \/
  (parse upper j = GPanic GPSpec /\ forall types, ~ reads_list reads_type j types) \/
  (parse upper j = GPanic GPBool /\ exists js, j = JArr js /\ Exists odd_flag js).
Proof. exact parse_cases. Qed.
Print Assumptions C65_parse.
Theorem C65_unique : forall j t t', reads_type j t -> reads_type j t' -> t = t'.
Proof. exact reads_type_unique. Qed.
Print Assumptions C65_unique.
Theorem C65_reads : forall upper js types, Forall2 reads_type js types -> Forall (fun j => ~ odd_flag j) js ->
  parse upper (JArr js) = definitions_from upper types.
Proof. exact parse_ok. Qed.
Print Assumptions C65_reads.
(** Entries in another order, with one that nobody asks for; and a flag that is the text [yes]. *)
Definition small_json : json := JObj
  [(s2b "provides", JNull); (s2b "label", JStr (s2b "a number")); (s2b "source", JStr (s2b "uint")); (s2b "name", JStr (s2b "paint-no"))].
Definition odd_json : json := JObj
  [(s2b "field", JArr [JObj [(s2b "name", JStr (s2b "f")); (s2b "type", JStr (s2b "uint")); (s2b "mandatory", JStr (s2b "yes"))]])].
Example C65_case : reads_type small_json (TAlias (MkRawAlias (s2b "paint-no") (s2b "uint") None)) /\ ~ odd_flag small_json /\
  odd_flag odd_json /\ (forall upper, parse upper (JArr [odd_json]) = GPanic GPBool) /\
  (forall upper, parse upper (JArr [JObj [(s2b "name", JStr (s2b "p")); (s2b "name", JStr (s2b "q")); (s2b "source", JStr (s2b "uint"))]]) = GPanic GPSpec).
Proof.
  split.
  { split; [|split].
    - intros e (l & [= <-] & _ & _ & _ & j & H & _). discriminate H.
    - intros d (l & [= <-] & _ & (j & H & _) & _). discriminate H.
    - eexists. split; [reflexivity|]. split; [eexists; now split|]. split; [eexists; now split|]. right. eexists. now split. }
  split; [intros (l & fs & f & k & t & [= <-] & H & _); exact H|].
  split; [|split; intros upper; reflexivity].
  exists [(s2b "field", JArr [JObj [(s2b "name", JStr (s2b "f")); (s2b "type", JStr (s2b "uint")); (s2b "mandatory", JStr (s2b "yes"))]])].
  eexists. eexists. exists "mandatory"%string, (s2b "yes"). split; [reflexivity|]. split; [now left|]. split; [now left|]. split; [now left|].
  split; [now left|]. split; discriminate.
Qed.

(** ** C66: the generated code as Rust *)
Theorem C66_specification : forall upper D, parse upper specification = GOk D -> accepted upper D.
Proof. exact all_accepted. Qed.
Print Assumptions C66_specification.
Theorem C66_type_identifier : forall ws, Forall plain_word ws -> ws <> [] -> identifier (camel_case (joined 45 ws)).
Proof. exact type_identifier. Qed.
Print Assumptions C66_type_identifier.
Theorem C66_member_identifier : forall upper ws, Forall plain_word ws -> ws <> [] -> identifier (snake_case upper (joined 45 ws)).
Proof. exact member_identifier. Qed.
Print Assumptions C66_member_identifier.
Example C66_case : exists l f, In l (df_lists D0) /\ In f (ds_fields l) /\ ds_transfer l = true /\ fi_is_ref f = false /\
  copyable D0 (fi_ty f) /\ fi_ty f = s2b "Handle" /\ usable (fi_name f) /\ plain_word (s2b "x509") /\ camel_case (s2b "x509") = s2b "X509".
Proof.
  exists (L 5). eexists. split; [apply at_list; bound|]. split; [left; reflexivity|]. split; [reflexivity|]. split; [reflexivity|].
  split; [apply copyb_true; reflexivity|]. split; [reflexivity|]. split; [apply usableb_true; reflexivity|]. split; [|reflexivity].
  eexists. eexists. split; [reflexivity|]. split; [vm_compute; split; discriminate|]. repeat (constructor; [right; vm_compute; split; discriminate|]). constructor.
Qed.
(** Only two of the keywords are avoided. *)
Theorem C66_keyword_refuted : exists w, plain_word w /\ forall upper, In (snake_case upper (joined 45 [w])) rust_keywords.
Proof.
  exists (s2b "match"). split; [|intros upper; apply contains_in; vm_compute; reflexivity].
  eexists. eexists. split; [reflexivity|]. split; [vm_compute; split; discriminate|]. repeat (constructor; [left; vm_compute; split; discriminate|]). constructor.
Qed.
Print Assumptions C66_keyword_refuted.
