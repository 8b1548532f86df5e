(** The claim about what the errors print, C77 of properties.jsonl.  The vocabulary is in DisplaySpec. *)

From Coq Require Import String.
From Verif Require Import Frames Utf8Spec Valid Wire TypeSpec CompositeSpec AllTypes CodecSpec FrameSpec Io Convert ErrorSpec ErrorFacts
  Display DisplaySpec DisplayFacts.
Open Scope string_scope.
Open Scope list_scope.
Open Scope Z_scope.

(** ** C77: different errors print different texts. *)
Theorem C77_parse_apart : forall E (X : externals E), others X -> forall a b, parse_error_display X a = parse_error_display X b -> a = b.
Proof. exact (@parse_told_apart). Qed.
Print Assumptions C77_parse_apart.
Theorem C77_codec_apart : forall E (X : externals E), others X -> io_told X -> forall a b, codec_error_display X a = codec_error_display X b -> a = b.
Proof. exact (@codec_told_apart). Qed.
Print Assumptions C77_codec_apart.
Theorem C77_protocol_apart : forall E (X : externals E), io_told X -> forall a b, protocol_error_display X a = protocol_error_display X b -> a = b.
Proof. exact (@protocol_told_apart). Qed.
Print Assumptions C77_protocol_apart.
Example C77_apart_example : others sample_texts /\ io_told sample_texts /\
  parse_error_display sample_texts (EInvalidFormatCode 5) <> parse_error_display sample_texts (EUnexpectedFrameType 5).
Proof.
  split; [|split; [intros a b [= E]; exact E | vm_compute; discriminate]].
  split; [eexists; reflexivity|]. split; [eexists; reflexivity | vm_compute; discriminate].
Qed.

(** Numbers are printed in decimal, and in one way only. *)
Theorem C77_number : forall n t, number n t <-> t = decimal n.
Proof. exact number_unique. Qed.
Print Assumptions C77_number.
Example C77_number_example : decimal 0 = s2b "0" /\ decimal 18446744073709551615 = s2b "18446744073709551615" /\ decimal (-10) = s2b "-10" /\
  ~ number 7 (s2b "07").
Proof.
  repeat split; try (vm_compute; reflexivity). intros H. apply number_unique in H. vm_compute in H. discriminate H.
Qed.

(** What the error of a decoder prints is true of the bytes that were read. *)
Theorem C77_value : forall E (X : externals E) T (S : tspec T), amqp_type S -> forall md inp e, bytes_ok inp ->
  decode (s_dec S) md inp = Err e -> tells X inp (parse_error_display X e).
Proof. exact (@type_tells). Qed.
Print Assumptions C77_value.
Theorem C77_message : forall E (X : externals E) md inp e, bytes_ok inp -> message_decode md inp = Err e -> tells X inp (parse_error_display X e).
Proof. exact (fun E X md inp e Hb Hd => says_tells E X inp e (message_says md inp e Hb Hd)). Qed.
Print Assumptions C77_message.
Theorem C77_amqp : forall E (X : externals E) md inp e, bytes_ok inp -> amqp_frame_decode md inp = Err e ->
  frame_tells X 0x00 inp (parse_error_display X e).
Proof. exact (fun E X md inp e Hb Hd => frame_says_tells E X 0x00 inp e (amqp_says md inp e Hb Hd)). Qed.
Print Assumptions C77_amqp.
Theorem C77_sasl : forall E (X : externals E) md inp e, bytes_ok inp -> sasl_frame_decode md inp = Err e ->
  frame_tells X 0x01 inp (parse_error_display X e).
Proof. exact (fun E X md inp e Hb Hd => frame_says_tells E X 0x01 inp e (sasl_says md inp e Hb Hd)). Qed.
Print Assumptions C77_sasl.
Example C77_value_example :
  decode (s_dec begin_S) Debug [0x00; 0x53; 0x11; 0x45] = Err (ERequiredFieldOmitted "next_outgoing_id") /\
  parse_error_display sample_texts (ERequiredFieldOmitted "next_outgoing_id") = s2b "Required field '""next_outgoing_id""' was omitted." /\
  decode (s_dec end_S) Debug [0x00; 0x53; 0x99] = Err (EInvalidDescriptor (DUlong 0x99)) /\
  parse_error_display sample_texts (EInvalidDescriptor (DUlong 0x99)) = s2b "Unexpected descriptor: 'Ulong(153)'" /\
  decode (s_dec bstr_S) Debug [0xa1; 3; 97] = Err (EIncomplete (Some 3)) /\
  parse_error_display sample_texts (EIncomplete (Some 3)) = s2b "More data required during frame parsing: 'Some(3)'".
Proof. repeat split; vm_compute; reflexivity. Qed.

(** The names of fields and enumerations have nothing to escape. *)
Theorem C77_names : forall name, (exists code type names, In (code, type, names) mandatory_fields /\ In name names) \/
  In name (map fst numbered) \/ In name (map fst spelled) -> plain name.
Proof. exact names_plain. Qed.
Print Assumptions C77_names.
Example C77_names_example : In (0x11, "amqp:begin:list", ["next_outgoing_id"; "incoming_window"; "outgoing_window"]) mandatory_fields /\
  ~ plain "a b".
Proof.
  split; [vm_compute; tauto|]. intros H. inversion H as [|c l _ H']; subst. inversion H' as [|c l Hc _]; subst. cbn in Hc. lia.
Qed.

(** When it is not known how many bytes are missing (the decoders always say it, see above). *)
Theorem C77_incomplete : forall E (X : externals E), parse_error_display X (EIncomplete None) = s2b "More data required during frame parsing: 'None'".
Proof. exact (fun E X => eq_refl). Qed.
Print Assumptions C77_incomplete.
(** The errors of the codec and of the protocol header. *)
Theorem C77_codec_texts : forall E (X : externals E) e err,
  codec_error_display X (KParse e) = parse_error_display X e /\
  codec_error_display X KUnparsed = s2b "bytes left unparsed at the frame trail" /\
  codec_error_display X (KIo None) = s2b "Io error: None" /\
  codec_error_display X (KIo (Some err)) = s2b "Io error: Some(" ++ x_io X err ++ s2b ")".
Proof. exact (fun E X e err => conj eq_refl (conj eq_refl (conj eq_refl eq_refl))). Qed.
Print Assumptions C77_codec_texts.
Theorem C77_unexpected : forall E (X : externals E) expected seen, protocol_error_display X (PEUnexpected expected seen) =
  s2b "Expected " ++ s2b (protocol_name expected) ++ s2b " protocol id, seen " ++ s2b (protocol_name seen) ++ s2b " instead.".
Proof. exact unexpected_text. Qed.
Print Assumptions C77_unexpected.
Example C77_unexpected_example : protocol_error_display sample_texts (PEUnexpected PAmqp PAmqpSasl) = s2b "Expected Amqp protocol id, seen AmqpSasl instead.".
Proof. vm_compute. reflexivity. Qed.
Theorem C77_protocol_texts : forall E (X : externals E) err,
  protocol_error_display X PEHeader = s2b "InvalidHeader" /\ protocol_error_display X PEIncompatible = s2b "Incompatible" /\
  protocol_error_display X PEUnknown = s2b "Unknown" /\ protocol_error_display X PEDisconnected = s2b "Disconnected" /\
  protocol_error_display X (PEIo err) = s2b "io error: " ++ x_io X err.
Proof. exact (fun E X err => conj eq_refl (conj eq_refl (conj eq_refl (conj eq_refl eq_refl)))). Qed.
Print Assumptions C77_protocol_texts.
(** A clone prints the same unless an I/O error was lost. *)
Theorem C77_clone : forall E (X : externals E) e, (forall err, e <> KIo (Some err)) ->
  codec_error_display X (codec_error_clone e) = codec_error_display X e.
Proof. exact (@clone_display). Qed.
Print Assumptions C77_clone.
Theorem C77_clone_refuted : exists e, codec_error_display sample_texts (codec_error_clone e) <> codec_error_display sample_texts e.
Proof. exists (KIo (Some 5)). vm_compute. discriminate. Qed.
Print Assumptions C77_clone_refuted.

(** [{:?}] of one symbol or descriptor tells which it is.  Of several symbols it does not, since quotes in a text are not escaped:
    one symbol can look like two.  For the same reason what a peer sends can put a new line into a message. *)
Theorem C77_symbol_debug : forall a b, symbol_debug a = symbol_debug b -> a = b.
Proof. exact symbol_debug_inj. Qed.
Print Assumptions C77_symbol_debug.
(** Their text. *)
Theorem C77_symbol_text : forall t, symbol_debug (SByteStr t) = s2b "Symbol(B:""" ++ t ++ s2b """)" /\
  symbol_debug (SStatic t) = s2b "Symbol(S:""" ++ t ++ s2b """)".
Proof. exact symbol_text. Qed.
Print Assumptions C77_symbol_text.
Theorem C77_symbols_text : symbols_debug [] = s2b "Multiple([])" /\ (forall a, symbols_debug [a] = s2b "Multiple([" ++ symbol_debug a ++ s2b "])") /\
  forall a b l, exists rest, symbols_debug (b :: l) = s2b "Multiple([" ++ rest ++ s2b "])" /\
    symbols_debug (a :: b :: l) = s2b "Multiple([" ++ symbol_debug a ++ s2b ", " ++ rest ++ s2b "])".
Proof. exact symbols_text. Qed.
Print Assumptions C77_symbols_text.
Example C77_symbols_text_example : symbols_debug [SStatic (s2b "PLAIN"); SByteStr (s2b "a")] = s2b "Multiple([Symbol(S:""PLAIN""), Symbol(B:""a"")])".
Proof. reflexivity. Qed.
Theorem C77_descriptor_debug : forall a b, descriptor_debug a = descriptor_debug b -> a = b.
Proof. exact descriptor_debug_inj. Qed.
Print Assumptions C77_descriptor_debug.
Theorem C77_symbols_debug_refuted : exists a b, symbols_debug a = symbols_debug b /\ a <> b.
Proof.
  exists [SByteStr (s2b "a"); SByteStr (s2b "b")], [SByteStr (s2b "a""), Symbol(B:""b")].
  split; [vm_compute; reflexivity | discriminate].
Qed.
Print Assumptions C77_symbols_debug_refuted.
Theorem C77_one_line_refuted : exists inp e, forall md, amqp_frame_decode md inp = Err e /\ In 10 (parse_error_display sample_texts e).
Proof.
  exists [2; 0; 0; 0; 0x00; 0xa3; 3; 97; 10; 98], (EInvalidDescriptor (DSymbol (SByteStr [97; 10; 98]))).
  intros md. split; [destruct md; vm_compute; reflexivity | vm_compute; tauto].
Qed.
Print Assumptions C77_one_line_refuted.
