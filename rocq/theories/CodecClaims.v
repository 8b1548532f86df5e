(** The claims about single values, C01-C16, C23, C24, C30, C40-C42, C46-C48 and C51-C53 of properties.jsonl.
    The vocabulary is in Valid, Wire, TypeSpec, CompositeSpec, AllTypes and CodecSpec. *)

From Coq Require Import String.
From Verif Require Import Definitions Utf8Spec Valid Wire TypeSpec CompositeSpec AllTypes CodecSpec EqFacts CodecFacts MapFacts ValueFacts DepthFacts
  PanicFacts SmallFacts ExactFacts.
Open Scope string_scope.
Open Scope list_scope.
Open Scope Z_scope.

(** Tactics for the examples: a text is UTF-8 by giving its characters; list-like goals piece by piece. *)
Ltac utf8 l := exists l; split; [repeat (apply Forall_cons; [left; lia|]); apply Forall_nil|reflexivity].
Ltac distinct_tac := repeat constructor.
Ltac bytes_tac := repeat (apply Forall_cons; [unfold byte_ok; lia|]); apply Forall_nil.

(** ** C01 *)
Theorem C01_primitive_round_trip : forall T (S : tspec T) R, primitive S R -> forall md v rest,
  s_valid S v -> s_size S v < 2 ^ 32 -> s_decodable S (s_canon S v) ->
  exists w, decode (s_dec S) md (s_bytes S v ++ rest) = Ok (rest, w) /\ R v w.
Proof. exact (@primitive_round_trip). Qed.
Print Assumptions C01_primitive_round_trip.
Example C01_symbol : primitive symbol_S (fun v w => str_eqb v w = true) /\ s_valid symbol_S (SStatic (s2b "abc")) /\
  s_size symbol_S (SStatic (s2b "abc")) < 2 ^ 32 /\
  decode (s_dec symbol_S) Debug (s_bytes symbol_S (SStatic (s2b "abc")) ++ [7]) = Ok ([7], SByteStr (s2b "abc")).
Proof. split; [constructor|]. split; [utf8 [97; 98; 99]|]. split; vm_compute; reflexivity. Qed.
Example C01_long : s_valid i64_S (-1234567890123) /\
  decode (s_dec i64_S) Release (s_bytes i64_S (-1234567890123) ++ [7]) = Ok ([7], -1234567890123).
Proof. split; [vm_compute; split; congruence|vm_compute; reflexivity]. Qed.

(** ** C02: [encoded_size] of every type.  Frames and messages: FrameClaims, MessageClaims. *)
Theorem C02_encoded_size : forall T (S : tspec T), amqp_type S -> forall v, s_valid S v -> s_size S v = zlen (s_bytes S v).
Proof. exact (@type_size). Qed.
Print Assumptions C02_encoded_size.
Example C02_example : amqp_type begin_S /\
  s_valid begin_S (MkBegin (Some 3) 1 2048 70000 4294967295 None (Some [SStatic (s2b "x")]) None) /\
  s_size begin_S (MkBegin (Some 3) 1 2048 70000 4294967295 None (Some [SStatic (s2b "x")]) None) = 31.
Proof.
  split; [apply (ty_composite begin_K); repeat (first [left; reflexivity|right])|]. split; [|vm_compute; reflexivity].
  cbn. unfold between. repeat split; try lia. apply Forall_cons; [utf8 [120]|apply Forall_nil].
Qed.

(** ** C03 *)
Theorem C03_primitive_layout : forall T (S : tspec T) R, primitive S R -> forall v, s_valid S v -> s_size S v < 2 ^ 32 ->
  s_wire S (s_canon S v) (s_bytes S v).
Proof. exact (fun T S R P v V Z => type_emits S (primitive_type S R P) v V (primitive_encodable S R v P) Z). Qed.
Print Assumptions C03_primitive_layout.
Theorem C03_primitive_shortest : forall T (S : tspec T) R, primitive S R -> forall v bs,
  s_valid S v -> s_wire S (s_canon S v) bs -> zlen (s_bytes S v) <= zlen bs.
Proof. exact (@primitive_shortest). Qed.
Print Assumptions C03_primitive_shortest.
Theorem C03_variant_layout : forall v, variant_ok v -> list_free v -> variant_size v < 2 ^ 32 ->
  wire (canon v) (wbytes (variant_enc v)).
Proof. exact (type_emits variant_S ty_variant). Qed.
Print Assumptions C03_variant_layout.
Theorem C03_variant_shortest : forall v bs, variant_ok v -> list_free v -> wire (canon v) bs ->
  zlen (wbytes (variant_enc v)) <= zlen bs.
Proof. exact variant_shortest. Qed.
Print Assumptions C03_variant_shortest.
Example C03_example : s_bytes u32_S 0 = [0x43] /\ s_bytes u32_S 255 = [0x52; 255] /\ s_bytes u32_S 256 = [0x70; 0; 0; 1; 0] /\
  s_bytes i32_S (-128) = [0x54; 128] /\ s_bytes i32_S (-129) = [0x71; 255; 255; 255; 127] /\
  s_wire u32_S 0 [0x70; 0; 0; 0; 0] /\
  zlen (s_bytes bin_S (repeat 1 255)) = 257 /\ zlen (s_bytes bin_S (repeat 1 256)) = 261.
Proof. repeat split. apply WU_32. lia. Qed.
Example C03_variant_example : variant_ok (VDescribed (DUlong 7) (VUint 5)) /\ list_free (VDescribed (DUlong 7) (VUint 5)) /\
  wbytes (variant_enc (VDescribed (DUlong 7) (VUint 5))) = [0; 0x53; 7; 0x52; 5] /\
  wire (canon (VDescribed (DUlong 7) (VUint 5))) [0; 0x80; 0; 0; 0; 0; 0; 0; 0; 7; 0x70; 0; 0; 0; 5].
Proof.
  split; [cbn; lia|]. split; [cbn; exact I|]. split; [reflexivity|].
  apply (W_described (DUlong 7) (VUint 5) [0x80; 0; 0; 0; 0; 0; 0; 0; 7] [0x70; 0; 0; 0; 5]).
  - apply WD_ulong, (WUL_64 7). lia.
  - apply W_uint, (WU_32 5). lia.
Qed.

(** ** C04 *)
Theorem C04_variant_accepts : forall md v bs rest, wire v bs -> decodable v -> decode variant_dec md (bs ++ rest) = Ok (rest, v).
Proof. exact (type_accepts variant_S ty_variant). Qed.
Print Assumptions C04_variant_accepts.
Theorem C04_type_accepts : forall T (S : tspec T), amqp_type S -> forall md v bs rest, s_wire S v bs -> s_decodable S v ->
  decode (s_dec S) md (bs ++ rest) = Ok (rest, v).
Proof. exact (@type_accepts). Qed.
Print Assumptions C04_type_accepts.
(** A list with the four-byte header, holding an empty list and a described number in its long form. *)
Example C04_example : wire (VList [VList []; VDescribed (DUlong 5) (VUint 1)])
    [0xd0; 0; 0; 0; 13; 0; 0; 0; 2; 0x45; 0x00; 0x53; 5; 0x70; 0; 0; 0; 1] /\
  decodable (VList [VList []; VDescribed (DUlong 5) (VUint 1)]).
Proof.
  split.
  - apply (W_list32 [VList []; VDescribed (DUlong 5) (VUint 1)] [0x45; 0x00; 0x53; 5; 0x70; 0; 0; 0; 1]); [|vm_compute; reflexivity].
    apply (WS_cons (VList []) _ [0x45] [0x00; 0x53; 5; 0x70; 0; 0; 0; 1]); [apply W_list0|].
    apply (WS_cons _ [] [0x00; 0x53; 5; 0x70; 0; 0; 0; 1] []); [|apply WS_nil].
    apply (W_described (DUlong 5) (VUint 1) [0x53; 5] [0x70; 0; 0; 0; 1]).
    + apply WD_ulong, WUL_8. lia.
    + apply W_uint, (WU_32 1). lia.
  - cbn. repeat split. discriminate.
Qed.

(** ** C05 *)
Theorem C05_variant_round_trip : forall md v rest, variant_ok v -> list_free v -> lossless v -> variant_size v < 2 ^ 32 ->
  decodable (canon v) ->
  exists w, decode variant_dec md (wbytes (variant_enc v) ++ rest) = Ok (rest, w) /\ variant_eqb v w = true.
Proof. exact variant_round_trip_equal. Qed.
Print Assumptions C05_variant_round_trip.
(** Without [lossless] the value read is still the one given by [canon]. *)
Theorem C05_variant_canonical : forall md v rest, variant_ok v -> list_free v -> variant_size v < 2 ^ 32 -> decodable (canon v) ->
  decode variant_dec md (wbytes (variant_enc v) ++ rest) = Ok (rest, canon v).
Proof. exact (type_round_trip variant_S ty_variant). Qed.
Print Assumptions C05_variant_canonical.
Definition C05_value : variant :=
  VMap [(VSymbol (SStatic (s2b "a")), VDescribed (DUlong 7) (VUint 300)); (VUint 1, VString (SStatic (s2b "b")))].
Example C05_example : variant_ok C05_value /\ list_free C05_value /\ lossless C05_value /\ variant_size C05_value < 2 ^ 32 /\
  decodable (canon C05_value).
Proof.
  unfold C05_value. split; [|split; [|split; [|split]]].
  - cbn [variant_ok all_prop descriptor_ok]. split; [|distinct_tac].
    repeat split; first [lia|utf8 [97]|utf8 [98]|reflexivity].
  - cbn [list_free all_prop]. tauto.
  - cbn [lossless all_prop]. tauto.
  - vm_compute. reflexivity.
  - cbn [canon decodable all_prop map]. split; [|distinct_tac]. repeat split. discriminate.
Qed.
(** A [StaticSymbol] comes back as a [Symbol], which is not equal to it. *)
Theorem C05_static_symbol_refuted : exists v w, variant_ok v /\ list_free v /\
  decode variant_dec Debug (wbytes (variant_enc v)) = Ok ([], w) /\ variant_eqb v w = false.
Proof. exists (VStaticSymbol (s2b "a")), (VSymbol (SByteStr (s2b "a"))). split; [utf8 [97]|]. repeat split. Qed.
Print Assumptions C05_static_symbol_refuted.

(** ** C06 *)
Theorem C06_list_never_read : forall T (d : dec T) md l rest, Forall variant_ok l ->
  exists c, decode (list_dec d) md (wbytes (list_enc variant_size variant_enc l) ++ rest) = Err (EInvalidFormatCode c) /\
            decode variant_dec md (wbytes (variant_enc (VList l)) ++ rest) = Err (EInvalidFormatCode c) /\ (c = 0xe0 \/ c = 0xf0).
Proof. exact (@list_not_read). Qed.
Print Assumptions C06_list_never_read.
(** A value with a list anywhere inside is never read back, not even as another value. *)
Theorem C06_containing_list_never_read : forall v, variant_ok v -> variant_size v < 2 ^ 32 -> ~ list_free v -> forall md rest r w,
  decode variant_dec md (wbytes (variant_enc v) ++ rest) <> Ok (r, w).
Proof. exact (fun v V Z N md rest r w E => N (proj2 (variant_frames v V Z md rest r w E))). Qed.
Print Assumptions C06_containing_list_never_read.
(** The first byte is all that is wrong: with the constructor of a list there instead, the bytes are an encoding of that list the
    standard allows, and are read. *)
Theorem C06_only_first_byte : forall l, Forall variant_ok l -> Forall list_free l -> list_size variant_size l < 2 ^ 32 ->
  exists c c' bs, wbytes (list_enc variant_size variant_enc l) = c :: bs /\ (c = 0xe0 /\ c' = 0xc0 \/ c = 0xf0 /\ c' = 0xd0) /\
    wire (VList (map canon l)) (c' :: bs) /\
    (decodable (VList (map canon l)) -> forall md rest, decode variant_dec md (c' :: bs ++ rest) = Ok (rest, VList (map canon l))).
Proof. exact list_first_byte_read. Qed.
Print Assumptions C06_only_first_byte.
Theorem C06_list_round_trip_refuted : exists v, variant_ok v /\ variant_size v < 2 ^ 32 /\
  decode variant_dec Release (wbytes (variant_enc v)) = Err (EInvalidFormatCode 0xe0).
Proof. exists (VList [VUint 1]). split; [cbn; lia|]. split; vm_compute; reflexivity. Qed.
Print Assumptions C06_list_round_trip_refuted.
Example C06_example : variant_ok (VDescribed (DUlong 1) (VList [VNull])) /\ variant_size (VDescribed (DUlong 1) (VList [VNull])) < 2 ^ 32 /\
  ~ list_free (VDescribed (DUlong 1) (VList [VNull])).
Proof. cbn. repeat split; try lia; auto. Qed.
Example C06_first_byte_example : Forall variant_ok [VUint 1; VNull] /\ Forall list_free [VUint 1; VNull] /\ list_size variant_size [VUint 1; VNull] < 2 ^ 32 /\
  wbytes (list_enc variant_size variant_enc [VUint 1; VNull]) = [0xe0; 4; 2; 0x52; 1; 0x40] /\
  decode variant_dec Debug [0xc0; 4; 2; 0x52; 1; 0x40] = Ok ([], VList [VUint 1; VNull]).
Proof. repeat split; repeat constructor; try (cbn; lia); vm_compute; try reflexivity. Qed.

(** ** C07, C08, C09: all types but [Transfer] and frames, for which see FrameClaims *)
(** The bytes taken are a prefix, and they alone determine the value, whatever follows them. *)
Theorem C07_prefix : forall T (S : tspec T), amqp_type S -> forall md inp rest v,
  decode (s_dec S) md inp = Ok (rest, v) ->
  exists p, inp = p ++ rest /\ p <> [] /\ forall other, decode (s_dec S) md (p ++ other) = Ok (other, v).
Proof. exact (@type_prefix_alone). Qed.
Print Assumptions C07_prefix.
Theorem C08_trailing_bytes : forall T (S : tspec T), amqp_type S -> forall md inp rest v more,
  decode (s_dec S) md inp = Ok (rest, v) -> decode (s_dec S) md (inp ++ more) = Ok (rest ++ more, v).
Proof. exact (@type_extend). Qed.
Print Assumptions C08_trailing_bytes.
Theorem C09_no_proper_prefix : forall T (S : tspec T), amqp_type S -> forall md a b rest v w,
  decode (s_dec S) md (a ++ b) = Ok ([], v) -> decode (s_dec S) md a = Ok (rest, w) -> b = [].
Proof. exact (@type_no_prefix). Qed.
Print Assumptions C09_no_proper_prefix.
(** An [end] with an error, after a description in four bytes of length, with two more bytes behind. *)
Definition C07_input : bytes :=
  [0x00; 0x53; 0x17; 0xc0; 33; 1; 0x00; 0x53; 0x1d; 0xc0; 27; 2; 0xa3; 18] ++ s2b "amqp:invalid-field" ++ [0xb1; 0; 0; 0; 1; 120].
Example C07_example : amqp_type end_S /\
  decode (s_dec end_S) Debug (C07_input ++ [1; 2]) =
  Ok ([1; 2], MkEnd (Some (MkError (EC_AmqpError AmqpError_InvalidField) (Some (s2b "x")) None))).
Proof. split; [apply (ty_composite end_K); repeat (first [left; reflexivity|right])|vm_compute; reflexivity]. Qed.
Example C08_example : amqp_type variant_S /\ decode variant_dec Release [0xc1; 3; 2; 0x41; 0x40; 0x50] = Ok ([0x50], VMap [(VBoolean true, VNull)]) /\
  decode variant_dec Release ([0xc1; 3; 2; 0x41; 0x40; 0x50] ++ [0xc1; 3]) = Ok ([0x50] ++ [0xc1; 3], VMap [(VBoolean true, VNull)]).
Proof. split; [apply ty_variant|]. split; vm_compute; reflexivity. Qed.
(** What is read to its end, and all its beginnings. *)
Example C09_example : decode (s_dec end_S) Debug (C07_input ++ []) = Ok ([], MkEnd (Some (MkError (EC_AmqpError AmqpError_InvalidField) (Some (s2b "x")) None))) /\
  forall n, (n < length C07_input)%nat -> exists k, decode (s_dec end_S) Debug (firstn n C07_input) = Err (EIncomplete (Some k)).
Proof.
  split; [vm_compute; reflexivity|]. change (length C07_input) with 38%nat. intros n H. do 38 (destruct n as [|n]; [eexists; vm_compute; reflexivity|]). lia.
Qed.

(** ** C10 *)
Theorem C10_well_typed : forall T (S : tspec T), amqp_type S -> forall md inp rest v,
  bytes_ok inp -> decode (s_dec S) md inp = Ok (rest, v) -> s_valid S v.
Proof. exact (@type_valid). Qed.
Print Assumptions C10_well_typed.
Example C10_example : bytes_ok [0xc1; 5; 2; 0x54; 255; 0x56; 1] /\
  decode variant_dec Debug [0xc1; 5; 2; 0x54; 255; 0x56; 1] = Ok ([], VMap [(VInt (-1), VBoolean true)]) /\
  variant_ok (VMap [(VInt (-1), VBoolean true)]).
Proof.
  split; [bytes_tac|]. split; [vm_compute; reflexivity|]. cbn. repeat split; try lia. repeat constructor.
Qed.

(** ** C11 *)
Theorem C11_string_utf8 : forall md b hdr rest, bytes_ok b -> var_header 0xa1 0xb1 (zlen b) hdr ->
  (is_utf8 b -> decode bstr_dec md (hdr ++ b ++ rest) = Ok (rest, b)) /\
  (~ is_utf8 b -> decode bstr_dec md (hdr ++ b ++ rest) = Err EUtf8Error).
Proof. exact bstr_read. Qed.
Print Assumptions C11_string_utf8.
Theorem C11_str_utf8 : forall md b hdr rest, bytes_ok b -> var_header 0xa1 0xb1 (zlen b) hdr ->
  (is_utf8 b -> decode str_dec md (hdr ++ b ++ rest) = Ok (rest, SByteStr b)) /\
  (~ is_utf8 b -> decode str_dec md (hdr ++ b ++ rest) = Err EUtf8Error).
Proof. exact str_read. Qed.
Print Assumptions C11_str_utf8.
Theorem C11_symbol_utf8 : forall md b hdr rest, bytes_ok b -> var_header 0xa3 0xb3 (zlen b) hdr ->
  (is_utf8 b -> decode symbol_dec md (hdr ++ b ++ rest) = Ok (rest, SByteStr b)) /\
  (~ is_utf8 b -> decode symbol_dec md (hdr ++ b ++ rest) = Err EUtf8Error).
Proof. exact symbol_read. Qed.
Print Assumptions C11_symbol_utf8.
(** The euro sign, U+20AC, and a surrogate, U+D800. *)
Example C11_example : is_utf8 [0xe2; 0x82; 0xac] /\ var_header 0xa1 0xb1 3 [0xb1; 0; 0; 0; 3] /\
  decode bstr_dec Debug ([0xb1; 0; 0; 0; 3] ++ [0xe2; 0x82; 0xac] ++ [9]) = Ok ([9], [0xe2; 0x82; 0xac]) /\
  decode bstr_dec Debug ([0xa1; 3] ++ [0xed; 0xa0; 0x80] ++ [9]) = Err EUtf8Error.
Proof.
  split; [utf8 [0x20ac]|]. split; [right; split; [lia|reflexivity]|]. split; vm_compute; reflexivity.
Qed.

(** ** C12 *)
Theorem C12_no_panic : forall T (S : tspec T) md bs p, panic_free S -> decode (s_dec S) md bs <> Panic p.
Proof. exact (@panic_free_never). Qed.
Print Assumptions C12_no_panic.
Theorem C12_flat_composites : forall K md bs p, In K flat_composites ->
  decode (s_dec (composite_S K)) md bs = Panic p -> md = Debug /\ p = PArith.
Proof. exact flat_never. Qed.
Print Assumptions C12_flat_composites.
Theorem C12_kinds_of_panic : forall T (S : tspec T) md bs p, amqp_type S -> decode (s_dec S) md bs = Panic p -> possible_panic md p.
Proof. exact (@type_panic). Qed.
Print Assumptions C12_kinds_of_panic.
(** The violations: each is a whole family of inputs, for every type of the kind. *)
Theorem C12_map_too_short : forall K V (KO : key K) (dk : dec K) (dv : dec V) md n len hdr body, map_header md n len hdr -> zlen body < len ->
  decode (map_dec KO dk dv) md (hdr ++ body) = Panic PSlice.
Proof. exact (@map_short). Qed.
Print Assumptions C12_map_too_short.
Theorem C12_variant_map_too_short : forall md n len hdr body, map_header md n len hdr -> zlen body < len ->
  decode variant_dec md (hdr ++ body) = Panic PSlice.
Proof. exact variant_map_short. Qed.
Print Assumptions C12_variant_map_too_short.
Theorem C12_array_without_code : forall T (d : dec T) md n len hdr, array_header md n len hdr -> decode (vec_dec d) md hdr = Panic PSlice.
Proof. exact (@vec_bare). Qed.
Print Assumptions C12_array_without_code.
Theorem C12_list_size_underflow : forall T (d : dec T) hdr r, tiny_header 0xc0 0xd0 hdr -> decode (list_dec d) Debug (hdr ++ r) = Panic PArith.
Proof. exact (@list_tiny). Qed.
Print Assumptions C12_list_size_underflow.
Theorem C12_map_size_underflow : forall K V (KO : key K) (dk : dec K) (dv : dec V) hdr r, tiny_header 0xc1 0xd1 hdr ->
  decode (map_dec KO dk dv) Debug (hdr ++ r) = Panic PArith.
Proof. exact (@map_tiny). Qed.
Print Assumptions C12_map_size_underflow.
Theorem C12_array_size_underflow : forall T (d : dec T) hdr r, tiny_header 0xe0 0xf0 hdr -> decode (vec_dec d) Debug (hdr ++ r) = Panic PArith.
Proof. exact (@vec_tiny). Qed.
Print Assumptions C12_array_size_underflow.
Theorem C12_composite_size_underflow : forall K label hdr r, In K all_composites -> wire_label (k_code K) (k_name K) label ->
  tiny_header 0xc0 0xd0 hdr -> decode (s_dec (composite_S K)) Debug (0x00 :: label ++ hdr ++ r) = Panic PArith.
Proof. exact composite_tiny. Qed.
Print Assumptions C12_composite_size_underflow.
Theorem C12_map_as_key : forall K V (KO : key K) (dk : dec K) (dv : dec V) md n len hdr ps content k bk v bv body,
  map_header md n len hdr -> zlen ps < n / 2 -> reads_pairs dk dv md ps content ->
  Forall (fun kv => k_hashable KO (fst kv) = true) ps -> reads dk md bk k -> reads dv md bv v -> k_hashable KO k = false ->
  zlen (content ++ bk ++ bv) <= len -> len <= zlen (content ++ bk ++ bv ++ body) ->
  decode (map_dec KO dk dv) md (hdr ++ content ++ bk ++ bv ++ body) = Panic PUnimplemented.
Proof. exact (@map_unhashable). Qed.
Print Assumptions C12_map_as_key.
Theorem C12_timestamp_out_of_range : forall md ms rest, - 2 ^ 63 <= ms < 2 ^ 63 ->
  ms / 1000 < chrono_min_secs \/ chrono_max_secs < ms / 1000 -> decode datetime_dec md (0x83 :: be8 ms ++ rest) = Panic PChrono.
Proof. exact timestamp_beyond. Qed.
Print Assumptions C12_timestamp_out_of_range.
Theorem C12_no_panic_refuted : exists a b c d e,
  decode variant_dec Release a = Panic PSlice /\ decode (s_dec symbols_S) Release b = Panic PSlice /\
  decode variant_dec Debug c = Panic PArith /\ decode variant_dec Release d = Panic PUnimplemented /\
  decode variant_dec Release e = Panic PChrono.
Proof.
  exists [0xc1; 5; 0], [0xe0; 2; 1], [0xc0; 0; 0], [0xc1; 5; 2; 0xc1; 1; 0; 0x40], [0x83; 127; 255; 255; 255; 255; 255; 255; 255].
  repeat split; vm_compute; reflexivity.
Qed.
Print Assumptions C12_no_panic_refuted.
Example C12_example : panic_free (option_S symbol_S) /\ decode (s_dec (option_S symbol_S)) Debug [0xa3; 5; 97] = Err (EIncomplete (Some 5)) /\
  In sasl_init_K flat_composites /\ map_header Debug 0 4 [0xc1; 5; 0] /\ tiny_header 0xc0 0xd0 [0xd0; 0; 0; 0; 3; 0; 0; 0; 1].
Proof.
  split; [constructor; constructor|]. split; [vm_compute; reflexivity|]. split; [repeat (first [left; reflexivity|right])|]. split.
  - left. split; [lia|]. split; [split; [lia|reflexivity]|reflexivity].
  - right. exists 3, 1. split; [lia|]. split; [lia|reflexivity].
Qed.
Example C12_families_example :
  array_header Release 3 7 [0xe0; 8; 3] /\ decode (vec_dec u32_dec) Release [0xe0; 8; 3] = Panic PSlice /\
  In close_K all_composites /\ wire_label (k_code close_K) (k_name close_K) [0x53; 0x18] /\
  decode (s_dec (composite_S close_K)) Debug [0x00; 0x53; 0x18; 0xd0; 0; 0; 0; 3; 0; 0; 0; 1; 9] = Panic PArith /\
  decode (vec_dec u32_dec) Debug [0xf0; 0; 0; 0; 0; 0; 0; 0; 1] = Panic PArith /\
  decode (map_dec variant_key variant_dec variant_dec) Debug [0xc1; 0; 9; 7] = Panic PArith /\
  (2 ^ 62) / 1000 > chrono_max_secs /\ decode datetime_dec Debug (0x83 :: be8 (2 ^ 62) ++ [1]) = Panic PChrono.
Proof.
  split; [left; split; [lia|]; split; [split; [lia|discriminate]|reflexivity]|]. split; [vm_compute; reflexivity|].
  split; [repeat (first [left; reflexivity|right])|]. split; [left; apply WUL_8; lia|]. repeat split; vm_compute; reflexivity.
Qed.
(** A map of two entries, the second with an empty map as its key. *)
Example C12_key_example : map_header Debug 4 6 [0xc1; 7; 4] /\ reads_pairs variant_dec variant_dec Debug [(VBoolean true, VNull)] [0x41; 0x40] /\
  reads variant_dec Debug [0xc1; 1; 0] (VMap []) /\ k_hashable variant_key (VMap []) = false /\ k_hashable variant_key (VBoolean true) = true /\
  decode (map_dec variant_key variant_dec variant_dec) Debug ([0xc1; 7; 4] ++ [0x41; 0x40] ++ [0xc1; 1; 0] ++ [0x40] ++ []) = Panic PUnimplemented.
Proof.
  split; [left; split; [lia|]; split; [split; [lia|intros _; lia]|reflexivity]|]. split.
  { apply (RP_cons _ _ _ (VBoolean true) VNull [] [0x41] [0x40] []); [intros r; apply C04_variant_accepts; [apply W_boolean; constructor|exact I]|intros r; apply C04_variant_accepts; [constructor|exact I]|apply RP_nil]. }
  split; [intros r; apply C04_variant_accepts; [apply (W_map8 [] []); [constructor|vm_compute; reflexivity]|cbn; split; [exact I|constructor]]|].
  repeat split; vm_compute; reflexivity.
Qed.

(** ** C13: [HashMap]s, for every key type whose equality is an equivalence *)
Theorem C13_map_read : forall K V (KO : key K) (SK : tspec K) (SV : tspec V), amqp_type SK -> amqp_type SV -> key_equivalence KO ->
  forall md inp rest m, bytes_ok inp -> decode (s_dec (map_S KO SK SV)) md inp = Ok (rest, m) ->
  exists hdr n ps content junk,
    inp = hdr ++ content ++ junk ++ rest /\ map_header md n (zlen (content ++ junk)) hdr /\ zlen ps = n / 2 /\
    reads_pairs (s_dec SK) (s_dec SV) md ps content /\ Forall (fun kv => k_hashable KO (fst kv) = true) ps /\ map_of KO ps m.
Proof. exact (@map_read). Qed.
Print Assumptions C13_map_read.
Theorem C13_map_accepts : forall K V (KO : key K) (SK : tspec K) (SV : tspec V), key_equivalence KO ->
  forall md hdr n ps content junk rest,
  map_header md n (zlen (content ++ junk)) hdr -> zlen ps = n / 2 ->
  reads_pairs (s_dec SK) (s_dec SV) md ps content -> Forall (fun kv => k_hashable KO (fst kv) = true) ps ->
  exists m, decode (s_dec (map_S KO SK SV)) md (hdr ++ content ++ junk ++ rest) = Ok (rest, m) /\ map_of KO ps m.
Proof. exact (@map_accepts). Qed.
Print Assumptions C13_map_accepts.
Theorem C13_key_equivalences : key_equivalence str_key /\ key_equivalence variant_key.
Proof. exact (conj str_key_equivalence variant_key_equivalence). Qed.
Print Assumptions C13_key_equivalences.
(** The key 1 twice, then two skipped bytes, then a byte behind the map; also an odd count. *)
Example C13_example :
  decode (s_dec (map_S variant_key variant_S variant_S)) Debug [0xc1; 9; 4; 0x52; 1; 0x41; 0x52; 1; 0x42; 0x99; 0x99; 0x50] =
    Ok ([0x50], [(VUint 1, VBoolean false)]) /\
  decode (s_dec (map_S variant_key variant_S variant_S)) Debug [0xc1; 4; 3; 0x52; 1; 0x41] = Ok ([], [(VUint 1, VBoolean true)]).
Proof. split; vm_compute; reflexivity. Qed.
Example C13_parts_example : key_equivalence str_key /\ map_header Release 3 4 [0xd1; 0; 0; 0; 8; 0; 0; 0; 3] /\
  reads_pairs str_dec variant_dec Release [(SByteStr [97], VNull)] [0xa1; 1; 97; 0x40] /\
  decode (s_dec (map_S str_key str_S variant_S)) Release ([0xd1; 0; 0; 0; 8; 0; 0; 0; 3] ++ [0xa1; 1; 97; 0x40] ++ [] ++ [5]) = Ok ([5], [(SByteStr [97], VNull)]).
Proof.
  split; [exact (proj1 C13_key_equivalences)|]. split; [right; split; [lia|]; split; [split; [lia|discriminate]|reflexivity]|]. split; [|vm_compute; reflexivity].
  apply (RP_cons _ _ _ (SByteStr [97]) VNull [] [0xa1; 1; 97] [0x40] []); [|intros r; apply C04_variant_accepts; [constructor|exact I]|apply RP_nil].
  intros r. apply (C04_type_accepts _ str_S ty_str Release (SByteStr [97]) [0xa1; 1; 97] r); [|exact I].
  exists [97]. split; [reflexivity|]. split; [utf8 [97]|]. apply (WV_8 0xa1 0xb1 [97]). reflexivity.
Qed.

(** ** C14.  Composites, which respect the size: CompositeClaims *)
Theorem C14_list_ignores_size : forall md l len hdr content rest,
  list_header md (zlen l) len hdr -> reads_all (decode variant_dec md) l content ->
  decode (list_dec variant_dec) md (hdr ++ content ++ rest) = Ok (rest, l).
Proof. exact list_accepts_any_size. Qed.
Print Assumptions C14_list_ignores_size.
Theorem C14_array_ignores_size : forall T (d : dec T) md l len hdr code content rest,
  array_header md (zlen l) len hdr -> reads_all (fun i => d md i code) l content ->
  decode (vec_dec d) md (hdr ++ code :: content ++ rest) = Ok (rest, l).
Proof. exact (@vec_accepts_any_size). Qed.
Print Assumptions C14_array_ignores_size.
Theorem C14_list_read : forall md inp rest l, bytes_ok inp -> decode (list_dec variant_dec) md inp = Ok (rest, l) ->
  exists hdr len content, inp = hdr ++ content ++ rest /\ list_header md (zlen l) len hdr /\ reads_all (decode variant_dec md) l content.
Proof. exact list_read. Qed.
Print Assumptions C14_list_read.
Theorem C14_array_read : forall T A width (S : tspec T), element A width S -> forall md inp rest l, bytes_ok inp ->
  decode (vec_dec (s_dec S)) md inp = Ok (rest, l) ->
  exists hdr len code content, inp = hdr ++ code :: content ++ rest /\ array_header md (zlen l) len hdr /\
    reads_all (fun i => s_dec S md i code) l content.
Proof. exact (@vec_read). Qed.
Print Assumptions C14_array_read.
(** A list that announces one byte of elements and takes three. *)
Theorem C14_list_size_refuted : exists hdr content l, list_header Debug (zlen l) 1 hdr /\ zlen content = 3 /\
  decode variant_dec Debug (hdr ++ content) = Ok ([], VList l).
Proof.
  exists [0xc0; 2; 2], [0x52; 5; 0x40], [VUint 5; VNull]. split.
  - right; left. split; [vm_compute; split; congruence|]. split; [split; [lia|reflexivity]|reflexivity].
  - split; vm_compute; reflexivity.
Qed.
Example C14_example : array_header Debug 2 0 [0xe0; 1; 2] /\ element i16_A (fun _ => 2) i16_S /\
  decode (vec_dec i16_dec) Debug ([0xe0; 1; 2] ++ 0x61 :: [255; 254; 0; 7] ++ [9]) = Ok ([9], [-2; 7]) /\
  decode (list_dec variant_dec) Release [0xd0; 255; 255; 255; 255; 0; 0; 0; 1; 0x41; 9] = Ok ([9], [VBoolean true]).
Proof. split; [left; split; [lia|]; split; [split; [lia|intros _; lia]|reflexivity]|]. split; [constructor|]. split; vm_compute; reflexivity. Qed.
Print Assumptions C14_list_size_refuted.

(** ** C15 *)
Theorem C15_array_round_trip : forall T A width (S : tspec T), element A width S -> forall md l rest,
  s_valid (vec_S A width S) l -> s_encodable (vec_S A width S) l -> s_size (vec_S A width S) l < 2 ^ 32 ->
  s_decodable (vec_S A width S) (map (s_canon S) l) ->
  decode (s_dec (vec_S A width S)) md (s_bytes (vec_S A width S) l ++ rest) = Ok (rest, map (s_canon S) l) /\
  wire_array (s_wire S) (map (s_canon S) l) (s_bytes (vec_S A width S) l).
Proof.
  exact (fun T A width S EL md l rest V E Z D =>
    conj (type_round_trip _ (ty_vec _ A width S EL) md l rest V E Z D) (type_emits _ (ty_vec _ A width S EL) l V E Z)).
Qed.
Print Assumptions C15_array_round_trip.
Example C15_example : element i16_A (fun _ => 2) i16_S /\ s_valid (vec_S i16_A (fun _ => 2) i16_S) [-2; 7] /\
  s_encodable (vec_S i16_A (fun _ => 2) i16_S) [-2; 7] /\ s_bytes (vec_S i16_A (fun _ => 2) i16_S) [-2; 7] = [0xe0; 6; 2; 0x61; 255; 254; 0; 7].
Proof. 
  split; [constructor|]. split; [repeat constructor; vm_compute; congruence|]. split; [|vm_compute; reflexivity].
  split; [repeat constructor|vm_compute; congruence].
Qed.
Theorem C15_content_254 : forall T A width (S : tspec T), element A width S -> forall l rest,
  Forall (s_valid S) l -> Forall (s_encodable S) l -> Forall (s_decodable S) (map (s_canon S) l) -> total_width width l = 254 ->
  (exists r, s_bytes (vec_S A width S) l = 0xe0 :: 0 :: zlen l :: r /\ zlen r = 255) /\
  decode (s_dec (vec_S A width S)) Debug (s_bytes (vec_S A width S) l ++ rest) = Panic PArith /\
  decode (s_dec (vec_S A width S)) Release (s_bytes (vec_S A width S) l ++ rest) = Ok (rest, map (s_canon S) l).
Proof. exact (@vec_254). Qed.
Print Assumptions C15_content_254.
Theorem C15_array_round_trip_refuted : exists l, s_valid (vec_S u8_A (fun _ => 1) u8_S) l /\
  decode (s_dec (vec_S u8_A (fun _ => 1) u8_S)) Debug (s_bytes (vec_S u8_A (fun _ => 1) u8_S) l) = Panic PArith.
Proof. exists (repeat 7 254). split; [apply Forall_forall; intros x H; apply repeat_spec in H as ->; vm_compute; split; congruence|vm_compute; reflexivity]. Qed.
Example C15_254_example : total_width (fun _ => 2) (repeat 5 127) = 254 /\ Forall (s_valid i16_S) (repeat 5 127) /\
  decode (s_dec (vec_S i16_A (fun _ => 2) i16_S)) Debug (s_bytes (vec_S i16_A (fun _ => 2) i16_S) (repeat 5 127)) = Panic PArith.
Proof. split; [vm_compute; reflexivity|]. split; [apply Forall_forall; intros x H; apply repeat_spec in H as ->; vm_compute; split; congruence|vm_compute; reflexivity]. Qed.
Print Assumptions C15_array_round_trip_refuted.

(** ** C16 *)
Theorem C16_one_is_bare : forall T A width (S : tspec T) x, s_bytes (multiple_S A width S) [x] = s_bytes S x.
Proof. exact (@multiple_one). Qed.
Print Assumptions C16_one_is_bare.
Theorem C16_others_are_arrays : forall T A width (S : tspec T) l, zlen l <> 1 -> s_bytes (multiple_S A width S) l = s_bytes (vec_S A width S) l.
Proof. exact (@multiple_many). Qed.
Print Assumptions C16_others_are_arrays.
Theorem C16_reads_both : forall T A width (S : tspec T), element A width S -> ~ In 0xe0 (s_codes S) -> ~ In 0xf0 (s_codes S) ->
  forall md l rest, Forall (s_decodable S) l ->
  (forall x bs, l = [x] -> s_wire S x bs -> decode (s_dec (multiple_S A width S)) md (bs ++ rest) = Ok (rest, l)) /\
  (forall bs, wire_array (s_wire S) l bs -> decode (s_dec (multiple_S A width S)) md (bs ++ rest) = Ok (rest, l)).
Proof. exact (@multiple_reads). Qed.
Print Assumptions C16_reads_both.
Example C16_parts_example : element symbol_A (fun s => 4 + zlen (str_bytes s)) symbol_S /\ ~ In 0xe0 (s_codes symbol_S) /\ ~ In 0xf0 (s_codes symbol_S) /\
  zlen [SStatic (s2b "a"); SStatic (s2b "b")] <> 1 /\ s_bytes symbols_S [SStatic (s2b "a"); SStatic (s2b "b")] = [0xe0; 12; 2; 0xb3; 0; 0; 0; 1; 97; 0; 0; 0; 1; 98].
Proof. split; [constructor|]. repeat split; vm_compute; intuition congruence. Qed.
Example C16_example : s_bytes symbols_S [SStatic (s2b "a")] = [0xa3; 1; 97] /\ s_bytes symbols_S [] = [0xe0; 2; 0; 0xb3] /\
  decode (s_dec symbols_S) Debug [0xe0; 7; 1; 0xb3; 0; 0; 0; 1; 97] = Ok ([], [SByteStr (s2b "a")]) /\
  decode (s_dec symbols_S) Debug [0xa3; 1; 97] = Ok ([], [SByteStr (s2b "a")]).
Proof. repeat split. Qed.

(** ** C23 *)
Theorem C23_enumerations : forall T B (S : tspec T) (w : B -> bytes -> Prop) (table : list (T * B)) name, enumeration S w table name ->
  (forall x, exists b, In (x, b) table /\ w b (s_bytes S x)) /\
  (forall x b c, In (x, b) table -> In (x, c) table -> b = c) /\
  (forall x y b, In (x, b) table -> In (y, b) table -> x = y) /\
  (forall md x b bs rest, In (x, b) table -> w b bs -> decode (s_dec S) md (bs ++ rest) = Ok (rest, x)) /\
  (forall md b bs rest, ~ In b (map snd table) -> w b bs -> decode (s_dec S) md (bs ++ rest) = Err (EUnknownEnumOption name)).
Proof. exact (@enumeration_facts). Qed.
Print Assumptions C23_enumerations.
Example C23_example : s_bytes sasl_code_S SaslCode_SysTemp = [0x50; 4] /\ ~ In 5 (map snd sasl_code_table) /\ wire_ubyte 5 [0x50; 5] /\
  decode (s_dec sasl_code_S) Debug [0x50; 5] = Err (EUnknownEnumOption "SaslCode").
Proof. split; [reflexivity|]. split; [vm_compute; intuition congruence|]. split; [vm_compute; repeat split; congruence|reflexivity]. Qed.

(** ** C24 *)
Theorem C24_custom_condition_kept : forall md s rest, symbol_ok s -> zlen (str_bytes s) < 2 ^ 32 - 5 ->
  (forall y t, In (y, t) condition_table -> str_bytes s <> s2b t) ->
  decode error_condition_dec md (wbytes (error_condition_enc (EC_Custom s)) ++ rest) = Ok (rest, EC_Custom (SByteStr (str_bytes s))).
Proof. exact custom_condition_kept. Qed.
Print Assumptions C24_custom_condition_kept.
Theorem C24_custom_condition_known : forall md s rest y t, In (y, t) condition_table -> str_bytes s = s2b t ->
  decode error_condition_dec md (wbytes (error_condition_enc (EC_Custom s)) ++ rest) = Ok (rest, y) /\
  wbytes (error_condition_enc (EC_Custom s)) = wbytes (error_condition_enc y).
Proof. exact custom_condition_known. Qed.
Print Assumptions C24_custom_condition_known.
Theorem C24_custom_distribution_kept : forall md s rest, symbol_ok s -> zlen (str_bytes s) < 2 ^ 32 - 5 ->
  str_bytes s <> s2b "move" -> str_bytes s <> s2b "copy" ->
  decode distribution_mode_dec md (wbytes (distribution_mode_enc (DM_Custom s)) ++ rest) = Ok (rest, DM_Custom (SByteStr (str_bytes s))).
Proof. exact custom_distribution_kept. Qed.
Print Assumptions C24_custom_distribution_kept.
Theorem C24_custom_distribution_known : forall md s rest y t, In (y, t) distribution_table -> str_bytes s = s2b t ->
  decode distribution_mode_dec md (wbytes (distribution_mode_enc (DM_Custom s)) ++ rest) = Ok (rest, y) /\
  wbytes (distribution_mode_enc (DM_Custom s)) = wbytes (distribution_mode_enc y).
Proof. exact custom_distribution_known. Qed.
Print Assumptions C24_custom_distribution_known.
Example C24_distribution_example : symbol_ok (SStatic (s2b "mine")) /\ s2b "mine" <> s2b "move" /\ s2b "mine" <> s2b "copy" /\
  In (DM_Copy, "copy") distribution_table /\ decode distribution_mode_dec Debug (wbytes (distribution_mode_enc (DM_Custom (SByteStr (s2b "copy"))))) = Ok ([], DM_Copy).
Proof.
  split; [utf8 [109; 105; 110; 101]|]. split; [vm_compute; congruence|]. split; [vm_compute; congruence|]. split; [repeat (first [left; reflexivity|right])|reflexivity].
Qed.
Example C24_example : symbol_ok (SStatic (s2b "x:y")) /\ (forall y t, In (y, t) condition_table -> s2b "x:y" <> s2b t) /\
  In (EC_LinkError LinkError_Stolen, "amqp:link:stolen") condition_table /\
  decode error_condition_dec Debug (wbytes (error_condition_enc (EC_Custom (SStatic (s2b "amqp:link:stolen"))))) =
    Ok ([], EC_LinkError LinkError_Stolen).
Proof.
  split; [utf8 [120; 58; 121]|]. split.
  - intros y t H. repeat (destruct H as [[= <- <-]|H]; [vm_compute; congruence|]). destruct H.
  - split; [vm_compute; repeat (first [left; reflexivity|right])|vm_compute; reflexivity].
Qed.

(** ** C30 *)
Theorem C30_round_trip : forall md t rest, datetime_ok t -> timestamp_supported (instant (millis t)) ->
  decode datetime_dec md (s_bytes datetime_S t ++ rest) = Ok (rest, instant (millis t)).
Proof.
  exact (fun md t rest V D => type_round_trip datetime_S ty_timestamp md t rest V I eq_refl D).
Qed.
Print Assumptions C30_round_trip.
Theorem C30_read : forall md ms rest, - 2 ^ 63 <= ms < 2 ^ 63 ->
  decode datetime_dec md (0x83 :: be8 ms ++ rest) =
  if (chrono_min_secs <=? dt_secs (read_instant ms)) && (dt_secs (read_instant ms) <=? chrono_max_secs)
  then Ok (rest, read_instant ms) else Panic PChrono.
Proof. exact datetime_read_instant. Qed.
Print Assumptions C30_read.
(** In the last second before 1970 the instant read is mirrored; a whole second before that is read as a leap second. *)
Theorem C30_mirrored_refuted : exists t w, datetime_ok t /\ millis w = - millis t /\ millis t < 0 /\
  decode datetime_dec Debug (s_bytes datetime_S t) = Ok ([], w).
Proof. exists (MkDT (-1) 750000000), (MkDT 0 250000000). repeat split; vm_compute; congruence. Qed.
Print Assumptions C30_mirrored_refuted.
Theorem C30_whole_second_refuted : exists t, datetime_ok t /\
  decode datetime_dec Debug (s_bytes datetime_S t) = Ok ([], MkDT (dt_secs t - 1) 1000000000).
Proof. exists (MkDT (-5) 0). repeat split; vm_compute; congruence. Qed.
Print Assumptions C30_whole_second_refuted.
Example C30_example : datetime_ok (MkDT (-86400) 123456789) /\ timestamp_supported (instant (millis (MkDT (-86400) 123456789))) /\
  instant (millis (MkDT (-86400) 123456789)) = MkDT (-86400) 123000000.
Proof.
  split; [vm_compute; repeat split; congruence|]. split; [|vm_compute; reflexivity].
  change (instant (millis (MkDT (-86400) 123456789))) with (MkDT (-86400) 123000000).
  unfold timestamp_supported, chrono_min_secs, chrono_max_secs. cbn [dt_secs dt_nanos]. lia.
Qed.

(** ** C40 *)
Theorem C40_injective : forall T (S : tspec T), amqp_type S -> forall v w,
  s_valid S v -> s_encodable S v -> s_size S v < 2 ^ 32 -> s_decodable S (s_canon S v) ->
  s_valid S w -> s_encodable S w -> s_size S w < 2 ^ 32 -> s_decodable S (s_canon S w) ->
  forall ex ey, s_bytes S v ++ ex = s_bytes S w ++ ey -> s_canon S v = s_canon S w /\ ex = ey.
Proof. exact (@type_injective). Qed.
Print Assumptions C40_injective.
Example C40_example : s_bytes variant_S (VUint 7) <> s_bytes variant_S (VUlong 7) /\ s_canon variant_S (VUint 7) <> s_canon variant_S (VUlong 7).
Proof. split; vm_compute; congruence. Qed.
Example C40_cases : amqp_type variant_S /\ s_valid variant_S (VSymbol (SStatic [97])) /\ s_encodable variant_S (VSymbol (SStatic [97])) /\
  s_size variant_S (VSymbol (SStatic [97])) < 2 ^ 32 /\ s_decodable variant_S (s_canon variant_S (VSymbol (SStatic [97]))) /\
  s_bytes variant_S (VSymbol (SStatic [97])) = s_bytes variant_S (VSymbol (SByteStr [97])) /\ s_canon variant_S (VSymbol (SStatic [97])) = s_canon variant_S (VSymbol (SByteStr [97])).
Proof. split; [apply ty_variant|]. split; [utf8 [97]|]. repeat split. Qed.

(** ** C41, C42 *)
Theorem C41_terminates : forall T (S : tspec T), amqp_type S -> forall md inp, decode (s_dec S) md inp <> Oof.
Proof. exact (@type_total). Qed.
Print Assumptions C41_terminates.
(** A level of nesting takes at least three bytes, and the innermost value one; C41_no_constant_depth shows that no more are needed. *)
Theorem C41_depth : forall md inp rest v, decode variant_dec md inp = Ok (rest, v) -> 3 * (depth v - 1) + 1 <= zlen inp - zlen rest.
Proof. exact decoded_third. Qed.
Print Assumptions C41_depth.
(** The same for the recursion, whether decoding succeeds or fails: [variant_dec_fuel f] gives up where the decoder calls itself
    more than [f] deep, and on [n] bytes that is not before [n / 3] rounded up; on some it is then. *)
Theorem C41_recursion : forall f md inp, zlen inp <= 3 * Z.of_nat f -> decode (variant_dec_fuel f) md inp = decode variant_dec md inp.
Proof. exact recursion. Qed.
Print Assumptions C41_recursion.
Theorem C41_recursion_tight : forall f md rest, decode (variant_dec_fuel f) md (nested_bytes f ++ rest) = Oof.
Proof. exact recursion_tight. Qed.
Print Assumptions C41_recursion_tight.
Example C41_recursion_example : zlen [0xc0; 9; 1; 0xc0; 9; 1; 0xc0; 9; 1] <= 3 * Z.of_nat 3 /\
  decode (variant_dec_fuel 3) Debug [0xc0; 9; 1; 0xc0; 9; 1; 0xc0; 9; 1] = Err (EIncomplete (Some 1)) /\
  decode (variant_dec_fuel 3) Debug (nested_bytes 3) = Oof /\ decode (variant_dec_fuel 4) Debug (nested_bytes 3) = Ok ([], nested 3).
Proof. split; [vm_compute; discriminate|]. repeat split; vm_compute; reflexivity. Qed.
Theorem C41_no_constant_depth : forall md n rest, decode variant_dec md (nested_bytes n ++ rest) = Ok (rest, nested n) /\
  depth (nested n) = Z.of_nat n + 1 /\ zlen (nested_bytes n) = 3 * Z.of_nat n + 1.
Proof. exact (fun md n rest => conj (nested_read md n rest) (nested_depth n)). Qed.
Print Assumptions C41_no_constant_depth.
Example C41_example : decode variant_dec Debug (nested_bytes 3 ++ [7]) = Ok ([7], nested 3) /\ depth (nested 3) = 4 /\
  decode variant_dec Debug (firstn 10 (nested_bytes 30)) = Err (EIncomplete (Some 1)).
Proof. repeat split; vm_compute; reflexivity. Qed.
Theorem C42_nodes : forall md inp rest v, decode variant_dec md inp = Ok (rest, v) -> nodes v <= zlen inp - zlen rest.
Proof. exact decoded_nodes. Qed.
Print Assumptions C42_nodes.
Theorem C42_array_amplification_refuted : forall md n rest, 0 <= n < 2 ^ 32 ->
  decode (vec_dec bool_dec) md (0xf0 :: be4 5 ++ be4 n ++ 0x41 :: rest) = Ok (rest, repeat true (Z.to_nat n)).
Proof. exact array_amplification. Qed.
Print Assumptions C42_array_amplification_refuted.
Example C42_example : exists v, decode variant_dec Debug [0xc0; 6; 3; 0x40; 0xc0; 2; 1; 0x40; 0x45] = Ok ([], v) /\ nodes v = 5 /\ depth v = 3.
Proof. exists (VList [VNull; VList [VNull]; VList []]). repeat split. Qed.

(** ** C46, C47, C52 *)
Theorem C46_equal_iff_same_text : forall a b, str_eqb a b = true <-> str_bytes a = str_bytes b.
Proof. exact str_eqb_spec. Qed.
Print Assumptions C46_equal_iff_same_text.
Theorem C46_equivalence : (forall a, str_eqb a a = true) /\ (forall a b, str_eqb a b = str_eqb b a) /\
  (forall a b c, str_eqb a b = true -> str_eqb b c = true -> str_eqb a c = true).
Proof. exact (conj str_eqb_refl (conj str_eqb_sym str_eqb_trans)). Qed.
Print Assumptions C46_equivalence.
(** Between texts stored alike the order is that of the bytes; between texts stored differently it ignores the text. *)
Theorem C46_order_same_storage : forall x y,
  match str_cmp (SByteStr x) (SByteStr y) with Eq => x = y | Lt => text_before x y | Gt => text_before y x end /\
  match str_cmp (SStatic x) (SStatic y) with Eq => x = y | Lt => text_before x y | Gt => text_before y x end.
Proof. exact (fun x y => conj (bytes_cmp_spec x y) (bytes_cmp_spec x y)). Qed.
Print Assumptions C46_order_same_storage.
Theorem C46_order_refuted : forall b, str_eqb (SByteStr b) (SStatic b) = true /\ str_cmp (SByteStr b) (SStatic b) = Lt.
Proof. exact (fun b => conj (proj2 (str_eqb_spec (SByteStr b) (SStatic b)) eq_refl) eq_refl). Qed.
Print Assumptions C46_order_refuted.
Example C46_example : str_eqb (SByteStr (s2b "ab")) (SStatic (s2b "ab")) = true /\ str_eqb (SByteStr (s2b "ab")) (SStatic (s2b "ac")) = false /\
  str_cmp (SStatic (s2b "ab")) (SStatic (s2b "b")) = Lt /\ text_before (s2b "ab") (s2b "b") /\ str_cmp (SByteStr (s2b "b")) (SStatic (s2b "ab")) = Lt.
Proof. repeat split; try reflexivity. apply TB_less. reflexivity. Qed.
Theorem C47_equivalence : (forall v, variant_ok v -> variant_eqb v v = true) /\
  (forall a b, variant_ok a -> variant_ok b -> variant_eqb a b = variant_eqb b a) /\
  (forall a, variant_ok a -> forall b c, variant_ok b -> variant_ok c ->
     variant_eqb a b = true -> variant_eqb b c = true -> variant_eqb a c = true).
Proof. exact (conj variant_eqb_refl (conj variant_eqb_sym variant_eqb_trans)). Qed.
Print Assumptions C47_equivalence.
(** Two different quiet NaNs, and maps in different order. *)
Example C47_example : variant_eqb (VFloat 0x7fc00000) (VFloat 0x7fc00001) = true /\ variant_eqb (VFloat 0) (VFloat 0x80000000) = true /\
  variant_eqb (VMap [(VUint 1, VNull); (VUint 2, VChar 65)]) (VMap [(VUint 2, VChar 65); (VUint 1, VNull)]) = true.
Proof. repeat split. Qed.
Theorem C52_text_equality : forall v t, variant_eq_text v t = true <-> variant_as_str v = Some t.
Proof. exact variant_eq_text_spec. Qed.
Print Assumptions C52_text_equality.
Theorem C52_static_symbol_refuted : forall t, variant_eq_text (VStaticSymbol t) t = false.
Proof. exact (fun t => eq_refl). Qed.
Print Assumptions C52_static_symbol_refuted.
Example C52_example : variant_eq_text (VSymbol (SStatic (s2b "a"))) (s2b "a") = true /\ variant_as_str (VString (SByteStr (s2b "a"))) = Some (s2b "a") /\
  variant_eq_text (VBinary (s2b "a")) (s2b "a") = false /\ variant_as_str (VStaticSymbol (s2b "a")) = None.
Proof. repeat split. Qed.

(** ** C48 *)
Theorem C48_layout : forall z c p, prepare_response z c p = z ++ 0 :: c ++ 0 :: p.
Proof. exact (fun z c p => eq_refl). Qed.
Print Assumptions C48_layout.
Theorem C48_unique : forall z c p z' c' p', ~ In 0 z -> ~ In 0 c -> ~ In 0 z' -> ~ In 0 c' ->
  prepare_response z c p = prepare_response z' c' p' -> z = z' /\ c = c' /\ p = p'.
Proof. exact prepare_response_unique. Qed.
Print Assumptions C48_unique.
(** With a NUL in an id the parts cannot be told apart. *)
Example C48_example : prepare_response (s2b "z") (s2b "user") (s2b "pw") = [122; 0; 117; 115; 101; 114; 0; 112; 119] /\
  prepare_response [0] [] [] = prepare_response [] [] [0].
Proof. split; reflexivity. Qed.

(** ** C51 *)
Theorem C51_other_codes_refused : forall T (S : tspec T), amqp_type S -> forall md c r,
  ~ In c (s_codes S) -> decode (s_dec S) md (c :: r) = Err (EInvalidFormatCode c).
Proof. exact (@type_reject). Qed.
Print Assumptions C51_other_codes_refused.
Example C51_example : ~ In 0xe0 (s_codes variant_S) /\ ~ In 0x44 (s_codes u32_S) /\ decode u32_dec Debug [0x44] = Err (EInvalidFormatCode 0x44).
Proof. repeat split; vm_compute; intuition congruence. Qed.

(** ** C53 *)
Theorem C53_exact_language : forall T (S : tspec T) L, language S L -> forall md inp rest v, bytes_ok inp ->
  (decode (s_dec S) md inp = Ok (rest, v) <-> exists bs, inp = bs ++ rest /\ L v bs).
Proof. exact (@language_exact). Qed.
Print Assumptions C53_exact_language.
Example C53_example : read_boolean true [0x56; 7] /\ decode bool_dec Debug [0x56; 7; 1] = Ok ([1], true) /\
  ~ wire_boolean true [0x56; 7] /\ language (option_S u32_S) (fun o bs => match o with Some x => wire_uint x bs | None => bs = [0x40] end).
Proof.
  split; [right; split; [reflexivity|exists 7; split; [lia|reflexivity]]|]. split; [reflexivity|]. split; [intros H; inversion H|].
  constructor; [constructor|vm_compute; intuition congruence].
Qed.
