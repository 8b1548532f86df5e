(** The claim C74 as theorems.  The vocabulary is in ConvertSpec, the proofs in ConvertFacts. *)

From Coq Require Import String.
From Verif Require Import Io Convert Utf8Spec Valid Wire TypeSpec CompositeSpec AllTypes CodecSpec MessageSpec FrameSpec ConvertSpec ConvertFacts.
Open Scope string_scope.
Open Scope list_scope.
Open Scope Z_scope.

(** ** C74 *)
(** A value and what it is converted to are sent alike. *)
Theorem C74_sent : forall X Y (A : way X) (B : way Y) f, conversion A B f -> forall x, w_size B (f x) = w_size A x /\ w_bytes B (f x) = w_bytes A x.
Proof. exact conversion_sent. Qed.
Print Assumptions C74_sent.
(** The other type's reader finds the converted value exactly where the type's own reader finds the value. *)
Theorem C74_read : forall X Y (A : way X) (B : way Y) f, conversion A B f -> forall md inp rest x,
  w_read B md inp = Ok (rest, f x) <-> w_read A md inp = Ok (rest, x).
Proof. exact conversion_read. Qed.
Print Assumptions C74_read.
Example C74_read_example : conversion (spec_way u32_S) (spec_way variant_S) variant_from_u32 /\
  w_read (spec_way u32_S) Debug [0x52; 7; 9] = Ok ([9], 7) /\ w_read (spec_way variant_S) Debug [0x52; 7; 9] = Ok ([9], VUint 7) /\
  conversion (spec_way link_error_S) (spec_way error_condition_S) condition_from_link_error /\
  w_read (spec_way error_condition_S) Debug (w_bytes (spec_way link_error_S) LinkError_Stolen) = Ok ([], EC_LinkError LinkError_Stolen) /\
  conversion (spec_way close_S) frame_way frame_from_close /\
  w_bytes frame_way (FR_Close (MkClose None)) = w_bytes (spec_way close_S) (MkClose None) /\
  w_read frame_way Debug (w_bytes (spec_way close_S) (MkClose None) ++ [1; 2]) = Ok ([1; 2], FR_Close (MkClose None)).
Proof. repeat split; try constructor; vm_compute; reflexivity. Qed.

(** A SASL frame made of a part: eight bytes and then the part, in both directions. *)
Theorem C74_sasl_sent : forall X (A : way X) f, sasl_conversion A f -> forall x, sasl_frame_size (f x) = 8 + w_size A x /\
  wbytes (sasl_frame_enc (f x)) = be4 (8 + w_size A x) ++ 2 :: 1 :: 0 :: 0 :: w_bytes A x.
Proof. exact sasl_sent. Qed.
Print Assumptions C74_sasl_sent.
Theorem C74_sasl_read : forall X (A : way X) f, sasl_conversion A f -> forall md ch ext hdr body rest x, wire_header 1 ch ext hdr ->
  (sasl_frame_decode md (hdr ++ body) = Ok (rest, f x) <-> w_read A md body = Ok (rest, x)).
Proof. exact sasl_reads. Qed.
Print Assumptions C74_sasl_read.
Example C74_sasl_example : sasl_conversion (spec_way sasl_response_S) sasl_frame_from_response /\
  wbytes (sasl_frame_enc (sasl_frame_from_response (MkSaslResponse [5; 6]))) = [0; 0; 0; 18; 2; 1; 0; 0; 0; 0x53; 0x43; 0xc0; 5; 1; 0xa0; 2; 5; 6] /\
  wire_header 1 0 [] [2; 1; 0; 0] /\
  sasl_frame_decode Debug ([2; 1; 0; 0] ++ [0; 0x53; 0x43; 0xc0; 5; 1; 0xa0; 2; 5; 6]) = Ok ([], sasl_frame_from_response (MkSaslResponse [5; 6])).
Proof.
  split; [constructor|]. split; [vm_compute; reflexivity|]. split; [exact (WH 1 2 0 [] ltac:(lia) ltac:(lia) eq_refl)|]. vm_compute. reflexivity.
Qed.

(** A static symbol is sent like a symbol, a described value as its descriptor and its value, a named condition as the symbol,
    bytes as they are, a message as the message. *)
Theorem C74_static_symbol_sent : forall b, variant_size (variant_from_static_symbol b) = variant_size (variant_from_symbol (symbol_from_static b)) /\
  wbytes (variant_enc (variant_from_static_symbol b)) = wbytes (variant_enc (variant_from_symbol (symbol_from_static b))).
Proof. exact static_symbol_sent. Qed.
Print Assumptions C74_static_symbol_sent.
Theorem C74_described_sent : forall d v, variant_size (variant_from_described (d, v)) = descriptor_size d + variant_size v /\
  wbytes (variant_enc (variant_from_described (d, v))) = wbytes (descriptor_enc d) ++ wbytes (variant_enc v).
Proof. exact described_sent. Qed.
Print Assumptions C74_described_sent.
Theorem C74_condition_symbol_sent : forall s, error_condition_size (condition_from_symbol s) = symbol_size s /\
  wbytes (error_condition_enc (condition_from_symbol s)) = wbytes (symbol_enc s).
Proof. exact condition_symbol_sent. Qed.
Print Assumptions C74_condition_symbol_sent.
Theorem C74_body_sent : (forall b, transfer_body_size (body_from_bin b) = zlen b /\ wbytes (transfer_body_enc (body_from_bin b)) = b) /\
  (forall m, transfer_body_size (body_from_in m) = message_size m /\ wbytes (transfer_body_enc (body_from_in m)) = wbytes (message_enc m)) /\
  (forall m, transfer_body_size (body_from_out m) = message_size m /\ wbytes (transfer_body_enc (body_from_out m)) = wbytes (message_enc m)).
Proof. exact body_sent. Qed.
Print Assumptions C74_body_sent.
Example C74_sent_example : wbytes (variant_enc (variant_from_static_symbol (s2b "ab"))) = [0xa3; 2; 97; 98] /\
  wbytes (variant_enc (variant_from_described (DUlong 5, VUbyte 1))) = [0; 0x53; 5; 0x50; 1] /\
  wbytes (error_condition_enc (condition_from_symbol (SByteStr (s2b "x:y")))) = [0xa3; 3; 120; 58; 121] /\
  wbytes (transfer_body_enc (body_from_bin [1; 2; 3])) = [1; 2; 3].
Proof. repeat split. Qed.
(** A condition made of a symbol need not come back as one: the names of the standard come back as the standard's errors. *)
Theorem C74_condition_symbol_read_refuted : exists s e, decode error_condition_dec Debug (wbytes (error_condition_enc (condition_from_symbol s))) =
  Ok ([], condition_from_link_error e).
Proof. exists (SByteStr (s2b "amqp:link:stolen")), LinkError_Stolen. vm_compute. reflexivity. Qed.
Print Assumptions C74_condition_symbol_read_refuted.

(** Texts: however a [Str] or [Symbol] is made of a text, every accessor gives the text, it is sent as the text, and it equals
    the same text and no other. *)
Theorem C74_texts : forall b s, made_str b s -> is_utf8 b -> str_len s = zlen b /\ str_borrow s = b /\ symbol_borrow s = b /\ str_as_bytes_str s = Some b /\
  str_size s = bstr_size b /\ wbytes (str_enc s) = wbytes (bstr_enc b) /\
  symbol_size s = static_symbol_size b /\ wbytes (symbol_enc s) = wbytes (static_symbol_enc b).
Proof. exact made_texts. Qed.
Print Assumptions C74_texts.
Theorem C74_texts_equal : forall b s c t, made_str b s -> made_str c t ->
  (str_eqb s t = true <-> b = c) /\ (str_eq_text s c = true <-> b = c) /\ (symbol_eq_text s c = true <-> b = c).
Proof. exact made_equal. Qed.
Print Assumptions C74_texts_equal.
Theorem C74_text_variants : forall b v c, made_variant b v -> is_utf8 b ->
  variant_as_str v = Some b /\ variant_as_bytes_str v = Some (Some b) /\ (variant_eq_text v c = true <-> b = c).
Proof. exact made_variants. Qed.
Print Assumptions C74_text_variants.
(** The two text accessors of a variant answer for the same values, and the unwrap in [as_bytes_str] fails only on a static text
    that is not UTF-8, of which Rust has none. *)
Theorem C74_other_variants : forall v, variant_as_bytes_str v = None <-> variant_as_str v = None.
Proof. exact accessors_others. Qed.
Print Assumptions C74_other_variants.
Theorem C74_unwrap : forall s, str_as_bytes_str s = None <-> exists b, s = SStatic b /\ utf8_valid b = false.
Proof. exact unwrap_fails. Qed.
Print Assumptions C74_unwrap.
Example C74_text_example : made_str (s2b "ab") (SStatic (s2b "ab")) /\ made_str (s2b "ab") (SByteStr (s2b "ab")) /\ is_utf8 (s2b "ab") /\
  str_eqb (SStatic (s2b "ab")) (SByteStr (s2b "ab")) = true /\ str_as_bytes_str (SStatic (s2b "ab")) = Some (s2b "ab") /\
  made_variant (s2b "ab") (VSymbol (SStatic (s2b "ab"))) /\ variant_as_bytes_str (VSymbol (SStatic (s2b "ab"))) = Some (Some (s2b "ab")) /\
  variant_as_bytes_str (VUint 3) = None.
Proof.
  split; [exact (ms_static _)|]. split; [exact (ms_bytestr _)|].
  split; [exists [97; 98]; split; [repeat constructor; unfold scalar; lia|reflexivity]|].
  split; [reflexivity|]. split; [reflexivity|]. split; [exact (mv_symbol _ _ (ms_symbol_static _))|]. now split.
Qed.

(** Collections, the parts of a frame, the names of frames. *)
Theorem C74_multiple : forall T (l : list T), multiple_iter (multiple_from_vec l) = l /\ multiple_len (multiple_from_vec l) = Z.of_nat (List.length l) /\
  (multiple_is_empty l = true <-> multiple_len l = 0) /\ multiple_len (@multiple_default T) = 0 /\ multiple_is_empty (@multiple_default T) = true.
Proof. exact @multiple_laws. Qed.
Print Assumptions C74_multiple.
Theorem C74_frame_parts : forall ch p f, amqp_frame_into_parts (amqp_frame_new ch p) = (ch, p) /\
  af_channel_id (amqp_frame_new ch p) = ch /\ af_performative (amqp_frame_new ch p) = p /\
  amqp_frame_new (fst (amqp_frame_into_parts f)) (snd (amqp_frame_into_parts f)) = f.
Proof. exact frame_parts. Qed.
Print Assumptions C74_frame_parts.
(** The name of a frame is that of its descriptor in the standard, written with capitals; no two performatives share it. *)
Theorem C74_frame_name : forall a x, In a frame_alts -> d_name (a_D a) = ("amqp:" ++ small_letters (frame_name (a_inj a x)) ++ ":list")%string.
Proof. exact frame_names. Qed.
Print Assumptions C74_frame_name.
Theorem C74_frame_names_differ : forall a b x y, In a frame_alts -> In b frame_alts -> frame_name (a_inj a x) = frame_name (a_inj b y) -> a = b.
Proof. exact frame_names_differ. Qed.
Print Assumptions C74_frame_names_differ.
Theorem C74_empty_name : forall f, frame_name f = "Empty" <-> f = FR_Empty.
Proof. exact frame_name_empty. Qed.
Print Assumptions C74_empty_name.
Example C74_rest_example : multiple_len [5; 6; 7] = 3 /\ multiple_is_empty [5] = false /\
  amqp_frame_into_parts (amqp_frame_new 3 FR_Empty) = (3, FR_Empty) /\ frame_name (FR_Close (MkClose None)) = "Close" /\
  d_name (composite_D close_K) = "amqp:close:list" /\ In (MkAlt (composite_D close_K) FR_Close (fun v => match v with FR_Close x => Some x | _ => None end)) frame_alts.
Proof. repeat split; cbn; auto 20. Qed.

(** Symbols as items of an array: exactly four bytes of length and a text in UTF-8 are read, what is written for an item is read back,
    and the items of [Multiple] (read with format code 0xb3) are read in the same way. *)
Theorem C74_array_symbol : forall inp j s, bytes_ok inp ->
  (symbol_array_decode inp = Ok (j, s) <-> exists b, s = SByteStr b /\ is_utf8 b /\ zlen b < 2 ^ 32 /\ inp = be4 (zlen b) ++ b ++ j).
Proof. exact array_symbol. Qed.
Print Assumptions C74_array_symbol.
Theorem C74_array_symbol_read : forall s rest, symbol_ok s -> str_len s < 2 ^ 32 ->
  symbol_array_decode (wbytes (a_enc symbol_A s) ++ rest) = Ok (rest, SByteStr (str_bytes s)).
Proof. exact array_symbol_encoded. Qed.
Print Assumptions C74_array_symbol_read.
Theorem C74_array_symbol_item : forall md inp, symbol_array_decode inp = symbol_dec md inp 0xb3.
Proof. exact array_symbol_item. Qed.
Print Assumptions C74_array_symbol_item.
Example C74_array_symbol_example : symbol_array_decode [0; 0; 0; 2; 97; 98; 7] = Ok ([7], SByteStr [97; 98]) /\
  symbol_array_decode [0; 0; 0; 1; 0xff] = Err EUtf8Error /\ wbytes (a_enc symbol_A (SStatic [97])) = [0; 0; 0; 1; 97].
Proof. repeat split. Qed.

(** A copy of an error is the error, except that an I/O error is lost. *)
Theorem C74_clone : forall E (e : codec_error E), (codec_error_clone e = e <-> forall err, e <> KIo (Some err)) /\
  codec_error_clone (codec_error_clone e) = codec_error_clone e.
Proof. exact (fun E e => conj (clone_same e) (clone_clone e)). Qed.
Print Assumptions C74_clone.
Theorem C74_clone_refuted : exists e : codec_error Z, codec_error_clone e <> e.
Proof. exists (codec_error_from_io 5). discriminate. Qed.
Print Assumptions C74_clone_refuted.
Example C74_clone_example : codec_error_clone (@KParse Z EInvalidSize) = KParse EInvalidSize /\ codec_error_clone (codec_error_from_io 5) = KIo None.
Proof. now split. Qed.
