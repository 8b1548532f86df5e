(** Model of /repo/src/codec/decode.rs (and [decode_check_len!], [decode_format_code] of codec/mod.rs).

    [fn decode_with_format(input: &[u8], fmt: u8) -> Result<(&[u8], T), AmqpParseError>] becomes a function of type
    [dec T]; the mode says what an underflowing subtraction does. Preallocation ([with_capacity]) is in Reserve. *)

From Verif Require Export Encode.

Definition dec (T : Type) := mode -> bytes -> Z -> res (bytes * T).

(** [decode_check_len!]: codec/mod.rs lines 6-12. *)
Definition check_len (inp : bytes) (n : Z) : res unit :=
  if zlen inp <? n then Err (EIncomplete (Some n)) else Ok tt.

(** [decode_format_code]: codec/mod.rs lines 59-62; [read_u8]: decode.rs lines 26-29.  The index [input[0]] is guarded by
    the length check. *)
Definition read_u8 (inp : bytes) : res (bytes * Z) :=
  _ <- check_len inp 1 ;;
  match inp with
  | b :: r => Ok (r, b)
  | [] => Panic PSlice
  end.
Definition decode_format_code (inp : bytes) : res (bytes * Z) := read_u8 inp.

(** Blanket [impl<T: DecodeFormatted> Decode for T]: codec/mod.rs lines 52-57. *)
Definition decode {T} (d : dec T) (md : mode) (inp : bytes) : res (bytes * T) :=
  '(inp1, fmt) <- decode_format_code inp ;;
  d md inp1 fmt.

(** [be_read!]: decode.rs lines 18-24, for unsigned reads; signed reads apply [to_signed]. *)
Definition be_read (inp : bytes) (size : Z) : res (bytes * Z) :=
  _ <- check_len inp size ;;
  Ok (zdrop size inp, be_val (ztake size inp)).
Definition be_read_signed (inp : bytes) (size : Z) : res (bytes * Z) :=
  '(i, o) <- be_read inp size ;; Ok (i, to_signed (8 * size) o).

(** [read_i8]: lines 31-34. *)
Definition read_i8 (inp : bytes) : res (bytes * Z) :=
  '(i, o) <- read_u8 inp ;; Ok (i, to_signed 8 o).

(** [read_bytes_u8]: lines 36-42; [read_bytes_u32]: lines 44-51. *)
Definition read_bytes_u8 (inp : bytes) : res (bytes * bytes) :=
  '(inp1, len) <- read_u8 inp ;;
  _ <- check_len inp1 len ;;
  Ok (zdrop len inp1, ztake len inp1).
Definition read_bytes_u32 (inp : bytes) : res (bytes * bytes) :=
  '(inp1, len) <- be_read inp 4 ;;
  _ <- check_len inp1 len ;;
  Ok (zdrop len inp1, ztake len inp1).

(** [validate_code!]: lines 53-60. *)
Definition validate_code (fmt code : Z) : res unit :=
  if fmt =? code then Ok tt else Err (EInvalidFormatCode fmt).

(** [bool]: lines 62-71. *)
Definition bool_dec : dec bool := fun md inp fmt =>
  if fmt =? FC_BOOLEAN then '(i, o) <- read_u8 inp ;; Ok (i, negb (o =? 0))
  else if fmt =? FC_BOOLEAN_TRUE then Ok (inp, true)
  else if fmt =? FC_BOOLEAN_FALSE then Ok (inp, false)
  else Err (EInvalidFormatCode fmt).

(** [u8]: lines 73-78. *)
Definition u8_dec : dec Z := fun md inp fmt =>
  _ <- validate_code fmt FC_UBYTE ;; read_u8 inp.

(** [u16]: lines 80-85. *)
Definition u16_dec : dec Z := fun md inp fmt =>
  _ <- validate_code fmt FC_USHORT ;; be_read inp 2.

(** [u32]: lines 87-96. *)
Definition u32_dec : dec Z := fun md inp fmt =>
  if fmt =? FC_UINT then be_read inp 4
  else if fmt =? FC_SMALLUINT then read_u8 inp
  else if fmt =? FC_UINT_0 then Ok (inp, 0)
  else Err (EInvalidFormatCode fmt).

(** [u64]: lines 98-107. *)
Definition u64_dec : dec Z := fun md inp fmt =>
  if fmt =? FC_ULONG then be_read inp 8
  else if fmt =? FC_SMALLULONG then read_u8 inp
  else if fmt =? FC_ULONG_0 then Ok (inp, 0)
  else Err (EInvalidFormatCode fmt).

(** [i8]: lines 109-114; [i16]: lines 116-121. *)
Definition i8_dec : dec Z := fun md inp fmt =>
  _ <- validate_code fmt FC_BYTE ;; read_i8 inp.
Definition i16_dec : dec Z := fun md inp fmt =>
  _ <- validate_code fmt FC_SHORT ;; be_read_signed inp 2.

(** [i32]: lines 123-131. *)
Definition i32_dec : dec Z := fun md inp fmt =>
  if fmt =? FC_INT then be_read_signed inp 4
  else if fmt =? FC_SMALLINT then read_i8 inp
  else Err (EInvalidFormatCode fmt).

(** [i64]: lines 133-141. *)
Definition i64_dec : dec Z := fun md inp fmt =>
  if fmt =? FC_LONG then be_read_signed inp 8
  else if fmt =? FC_SMALLLONG then read_i8 inp
  else Err (EInvalidFormatCode fmt).

(** [f32]: lines 143-148; [f64]: lines 150-155, as bit patterns. *)
Definition f32_dec : dec Z := fun md inp fmt =>
  _ <- validate_code fmt FC_FLOAT ;; be_read inp 4.
Definition f64_dec : dec Z := fun md inp fmt =>
  _ <- validate_code fmt FC_DOUBLE ;; be_read inp 8.

(** [char]: lines 157-168. *)
Definition char_dec : dec Z := fun md inp fmt =>
  _ <- validate_code fmt FC_CHAR ;;
  '(i, o) <- be_read inp 4 ;;
  if char_ok o then Ok (i, o) else Err (EInvalidChar o).

(** [Utc.timestamp(secs, nsecs)], chrono 0.4: panics when the instant is not representable. *)
Definition utc_timestamp (secs nsecs : Z) : res datetime :=
  if (chrono_min_secs <=? secs) && (secs <=? chrono_max_secs) && (nsecs <? 2000000000)
  then Ok (MkDT secs nsecs) else Panic PChrono.

(** [datetime_from_millis]: lines 552-564.  [/] on [i64] truncates. *)
Definition datetime_from_millis (millis : Z) : res datetime :=
  let seconds := Z.quot millis 1000 in
  if seconds <? 0 then
    let nanoseconds := Z.abs ((1000 + (millis - seconds * 1000)) * 1000000) mod 2 ^ 32 in
    utc_timestamp (seconds - 1) nanoseconds
  else
    let nanoseconds := Z.abs ((millis - seconds * 1000) * 1000000) mod 2 ^ 32 in
    utc_timestamp seconds nanoseconds.

(** [DateTime<Utc>]: lines 170-175. *)
Definition datetime_dec : dec datetime := fun md inp fmt =>
  _ <- validate_code fmt FC_TIMESTAMP ;;
  '(i, o) <- be_read_signed inp 8 ;;
  t <- datetime_from_millis o ;;
  Ok (i, t).

(** [Uuid]: lines 177-184 ([Uuid::from_slice] of 16 bytes cannot fail). *)
Definition uuid_dec : dec bytes := fun md inp fmt =>
  _ <- validate_code fmt FC_UUID ;;
  _ <- check_len inp 16 ;;
  Ok (zdrop 16 inp, ztake 16 inp).

(** [Bytes]: lines 186-194. *)
Definition bin_dec : dec bytes := fun md inp fmt =>
  if fmt =? FC_BINARY8 then read_bytes_u8 inp
  else if fmt =? FC_BINARY32 then read_bytes_u32 inp
  else Err (EInvalidFormatCode fmt).

(** [str::from_utf8(bytes)?] *)
Definition from_utf8 (b : bytes) : res bytes := if utf8_valid b then Ok b else Err EUtf8Error.

(** [ByteStr]: lines 196-210. *)
Definition bstr_dec : dec bytes := fun md inp fmt =>
  if fmt =? FC_STRING8 then
    '(inp1, b) <- read_bytes_u8 inp ;; s <- from_utf8 b ;; Ok (inp1, s)
  else if fmt =? FC_STRING32 then
    '(inp1, b) <- read_bytes_u32 inp ;; s <- from_utf8 b ;; Ok (inp1, s)
  else Err (EInvalidFormatCode fmt).

(** [Str]: lines 212-226. *)
Definition str_dec : dec str := fun md inp fmt =>
  if fmt =? FC_STRING8 then
    '(inp1, b) <- read_bytes_u8 inp ;; s <- from_utf8 b ;; Ok (inp1, str_from_str s)
  else if fmt =? FC_STRING32 then
    '(inp1, b) <- read_bytes_u32 inp ;; s <- from_utf8 b ;; Ok (inp1, str_from_str s)
  else Err (EInvalidFormatCode fmt).

(** [Symbol]: lines 228-242. *)
Definition symbol_dec : dec symbol := fun md inp fmt =>
  if fmt =? FC_SYMBOL8 then
    '(inp1, b) <- read_bytes_u8 inp ;; s <- from_utf8 b ;; Ok (inp1, symbol_from_slice s)
  else if fmt =? FC_SYMBOL32 then
    '(inp1, b) <- read_bytes_u32 inp ;; s <- from_utf8 b ;; Ok (inp1, symbol_from_slice s)
  else Err (EInvalidFormatCode fmt).

(** [CompoundHeader]: /repo/src/protocol/mod.rs lines 20-30. *)
Record compound_header := MkCH { ch_size : Z; ch_count : Z }.

(** Subtraction on an unsigned type of [bits] bits. *)
Definition usub (md : mode) (bits : Z) (a b : Z) : res Z :=
  if a <? b then
    match md with
    | Debug => Panic PArith
    | Release => Ok ((a - b) mod 2 ^ bits)
    end
  else Ok (a - b).

(** [decode_compound8]: decode.rs lines 532-543. *)
Definition decode_compound8 (md : mode) (inp : bytes) : res (bytes * compound_header) :=
  _ <- check_len inp 2 ;;
  match inp with
  | b0 :: b1 :: r =>
    size <- usub md 8 b0 1 ;;
    Ok (r, MkCH size b1)
  | _ => Panic PSlice
  end.

(** [decode_compound32]: lines 545-550. *)
Definition decode_compound32 (md : mode) (inp : bytes) : res (bytes * compound_header) :=
  _ <- check_len inp 8 ;;
  size <- usub md 32 (be_val (ztake 4 inp)) 4 ;;
  let count := be_val (ztake 4 (zdrop 4 inp)) in
  Ok (zdrop 8 inp, MkCH size count).

(** [decode_array_header]: lines 501-507; [decode_list_header]: 509-519; [decode_map_header]: 521-530. *)
Definition decode_array_header (md : mode) (inp : bytes) (fmt : Z) : res (bytes * compound_header) :=
  if fmt =? FC_ARRAY8 then decode_compound8 md inp
  else if fmt =? FC_ARRAY32 then decode_compound32 md inp
  else Err (EInvalidFormatCode fmt).
Definition decode_list_header (md : mode) (inp : bytes) (fmt : Z) : res (bytes * compound_header) :=
  if fmt =? FC_LIST0 then Ok (inp, MkCH 0 0)
  else if fmt =? FC_LIST8 then decode_compound8 md inp
  else if fmt =? FC_LIST32 then decode_compound32 md inp
  else Err (EInvalidFormatCode fmt).
Definition decode_map_header (md : mode) (inp : bytes) (fmt : Z) : res (bytes * compound_header) :=
  if fmt =? FC_MAP8 then decode_compound8 md inp
  else if fmt =? FC_MAP32 then decode_compound32 md inp
  else Err (EInvalidFormatCode fmt).

(** [&input[..n]] with the bounds check. *)
Definition slice_to (inp : bytes) (n : Z) : res bytes :=
  if zlen inp <? n then Panic PSlice else Ok (ztake n inp).

(** How a key type behaves in a [HashMap]: its [Eq], and whether its [Hash] returns. *)
Record key (K : Type) := MkKey { k_eqb : K -> K -> bool; k_hashable : K -> bool }.
Arguments MkKey {K}. Arguments k_eqb {K}. Arguments k_hashable {K}.
Definition variant_key : key variant := MkKey variant_eqb variant_hashable.
(** [Symbol] and [Str] hash their text (types/mod.rs 125-132, symbol.rs 8). *)
Definition str_key : key str := MkKey str_eqb (fun _ => true).

(** [HashMap<K, V>]: lines 251-269.  [dk]/[dv] are [K::decode], [V::decode]. *)
Definition map_step {K V} (KO : key K) (dk : bytes -> res (bytes * K)) (dv : bytes -> res (bytes * V))
    (s : bytes * list (K * V)) : res (bytes * list (K * V)) :=
  let (map_input, m) := s in
  '(input1, k) <- dk map_input ;;
  '(input2, v) <- dv input1 ;;
  if k_hashable KO k then Ok (input2, hm_insert (k_eqb KO) k v m) else Panic PUnimplemented.
Definition map_dec {K V} (KO : key K) (dk : dec K) (dv : dec V) : dec (list (K * V)) := fun md inp fmt =>
  '(inp1, header) <- decode_map_header md inp fmt ;;
  map_input <- slice_to inp1 (ch_size header) ;;
  let count := ch_count header / 2 in
  '(_, m) <- loop_n count (map_step KO (decode dk md) (decode dv md)) (map_input, []) ;;
  Ok (zdrop (ch_size header) inp1, m).

(** [Vec<T>]: lines 271-284. *)
Definition vec_step {T} (d : bytes -> res (bytes * T)) (s : bytes * list T) : res (bytes * list T) :=
  let (inp, acc) := s in
  '(inp1, x) <- d inp ;;
  Ok (inp1, acc ++ [x]).
Definition vec_dec {T} (d : dec T) : dec (list T) := fun md inp fmt =>
  '(inp1, header) <- decode_array_header md inp fmt ;;
  match inp1 with
  | [] => Panic PSlice
  | item_fmt :: inp2 =>
    loop_n (ch_count header) (vec_step (fun i => d md i item_fmt)) (inp2, [])
  end.

(** [Multiple<T>]: lines 303-316. *)
Definition multiple_dec {T} (d : dec T) : dec (list T) := fun md inp fmt =>
  if (fmt =? FC_ARRAY8) || (fmt =? FC_ARRAY32) then vec_dec d md inp fmt
  else '(i, x) <- d md inp fmt ;; Ok (i, [x]).

(** [List]: lines 318-329, over the element decoder [Variant::decode]. *)
Definition list_dec {T} (d : dec T) : dec (list T) := fun md inp fmt =>
  '(inp1, header) <- decode_list_header md inp fmt ;;
  loop_n (ch_count header) (vec_step (decode d md)) (inp1, []).

(** [Option<T>]: lines 434-441. *)
Definition option_dec {T} (d : dec T) : dec (option T) := fun md inp fmt =>
  if fmt =? FC_NULL then Ok (inp, None)
  else map_res Some (d md inp fmt).

(** [Descriptor]: lines 443-461. *)
Definition descriptor_dec : dec descriptor := fun md inp fmt =>
  if fmt =? FC_SMALLULONG then map_res DUlong (u64_dec md inp fmt)
  else if fmt =? FC_ULONG then map_res DUlong (u64_dec md inp fmt)
  else if fmt =? FC_SYMBOL8 then map_res DSymbol (symbol_dec md inp fmt)
  else if fmt =? FC_SYMBOL32 then map_res DSymbol (symbol_dec md inp fmt)
  else Err (EInvalidFormatCode fmt).

(** [Variant]: lines 331-432.  [fuel] bounds the recursion depth; [variant_dec] starts with more fuel than input. *)
Fixpoint variant_dec_fuel (fuel : nat) (md : mode) (inp : bytes) (fmt : Z) : res (bytes * variant) :=
  match fuel with
  | O => Oof
  | S f =>
    if fmt =? FC_NULL then Ok (inp, VNull)
    else if fmt =? FC_BOOLEAN then map_res VBoolean (bool_dec md inp fmt)
    else if fmt =? FC_BOOLEAN_FALSE then Ok (inp, VBoolean false)
    else if fmt =? FC_BOOLEAN_TRUE then Ok (inp, VBoolean true)
    else if fmt =? FC_UINT_0 then Ok (inp, VUint 0)
    else if fmt =? FC_ULONG_0 then Ok (inp, VUlong 0)
    else if fmt =? FC_UBYTE then map_res VUbyte (u8_dec md inp fmt)
    else if fmt =? FC_USHORT then map_res VUshort (u16_dec md inp fmt)
    else if fmt =? FC_UINT then map_res VUint (u32_dec md inp fmt)
    else if fmt =? FC_ULONG then map_res VUlong (u64_dec md inp fmt)
    else if fmt =? FC_BYTE then map_res VByte (i8_dec md inp fmt)
    else if fmt =? FC_SHORT then map_res VShort (i16_dec md inp fmt)
    else if fmt =? FC_INT then map_res VInt (i32_dec md inp fmt)
    else if fmt =? FC_LONG then map_res VLong (i64_dec md inp fmt)
    else if fmt =? FC_SMALLUINT then map_res VUint (u32_dec md inp fmt)
    else if fmt =? FC_SMALLULONG then map_res VUlong (u64_dec md inp fmt)
    else if fmt =? FC_SMALLINT then map_res VInt (i32_dec md inp fmt)
    else if fmt =? FC_SMALLLONG then map_res VLong (i64_dec md inp fmt)
    else if fmt =? FC_FLOAT then map_res VFloat (f32_dec md inp fmt)
    else if fmt =? FC_DOUBLE then map_res VDouble (f64_dec md inp fmt)
    else if fmt =? FC_CHAR then map_res VChar (char_dec md inp fmt)
    else if fmt =? FC_TIMESTAMP then map_res VTimestamp (datetime_dec md inp fmt)
    else if fmt =? FC_UUID then map_res VUuid (uuid_dec md inp fmt)
    else if fmt =? FC_BINARY8 then map_res VBinary (bin_dec md inp fmt)
    else if fmt =? FC_BINARY32 then map_res VBinary (bin_dec md inp fmt)
    else if fmt =? FC_STRING8 then map_res (fun s => VString (str_from_bytestr s)) (bstr_dec md inp fmt)
    else if fmt =? FC_STRING32 then map_res (fun s => VString (str_from_bytestr s)) (bstr_dec md inp fmt)
    else if fmt =? FC_SYMBOL8 then map_res VSymbol (symbol_dec md inp fmt)
    else if fmt =? FC_SYMBOL32 then map_res VSymbol (symbol_dec md inp fmt)
    else if fmt =? FC_LIST0 then Ok (inp, VList [])
    else if fmt =? FC_LIST8 then map_res VList (list_dec (variant_dec_fuel f) md inp fmt)
    else if fmt =? FC_LIST32 then map_res VList (list_dec (variant_dec_fuel f) md inp fmt)
    else if fmt =? FC_MAP8 then
      map_res VMap (map_dec variant_key (variant_dec_fuel f) (variant_dec_fuel f) md inp fmt)
    else if fmt =? FC_MAP32 then
      map_res VMap (map_dec variant_key (variant_dec_fuel f) (variant_dec_fuel f) md inp fmt)
    else if fmt =? FC_DESCRIBED then
      '(inp1, d) <- decode descriptor_dec md inp ;;
      '(inp2, v) <- decode (variant_dec_fuel f) md inp1 ;;
      Ok (inp2, VDescribed d v)
    else Err (EInvalidFormatCode fmt)
  end.

Definition variant_dec : dec variant := fun md inp fmt =>
  variant_dec_fuel (S (length inp)) md inp fmt.

(** [VecVariantMap]: lines 286-301. *)
Definition vecmap_step (dk : bytes -> res (bytes * str)) (dv : bytes -> res (bytes * variant))
    (s : bytes * list (str * variant)) : res (bytes * list (str * variant)) :=
  let (map_input, m) := s in
  '(input1, k) <- dk map_input ;;
  '(input2, v) <- dv input1 ;;
  Ok (input2, m ++ [(k, v)]).
Definition vecmap_dec : dec (list (str * variant)) := fun md inp fmt =>
  '(inp1, header) <- decode_map_header md inp fmt ;;
  map_input <- slice_to inp1 (ch_size header) ;;
  let count := ch_count header / 2 in
  '(_, m) <- loop_n count (vecmap_step (decode str_dec md) (decode variant_dec md)) (map_input, []) ;;
  Ok (zdrop (ch_size header) inp1, m).

(** A type with both traits: [Encode] and [DecodeFormatted]. *)
Record codec (T : Type) : Type := MkCodec { c_E : enc T; c_D : dec T }.
Arguments MkCodec {T}. Arguments c_E {T}. Arguments c_D {T}.

Definition bool_C := MkCodec bool_E bool_dec.
Definition u8_C := MkCodec u8_E u8_dec.
Definition u16_C := MkCodec u16_E u16_dec.
Definition u32_C := MkCodec u32_E u32_dec.
Definition u64_C := MkCodec u64_E u64_dec.
Definition i8_C := MkCodec i8_E i8_dec.
Definition i16_C := MkCodec i16_E i16_dec.
Definition i32_C := MkCodec i32_E i32_dec.
Definition i64_C := MkCodec i64_E i64_dec.
Definition f32_C := MkCodec f32_E f32_dec.
Definition f64_C := MkCodec f64_E f64_dec.
Definition char_C := MkCodec char_E char_dec.
Definition datetime_C := MkCodec datetime_E datetime_dec.
Definition uuid_C := MkCodec uuid_E uuid_dec.
Definition bin_C := MkCodec bin_E bin_dec.
Definition bstr_C := MkCodec bstr_E bstr_dec.
Definition str_C := MkCodec str_E str_dec.
Definition symbol_C := MkCodec symbol_E symbol_dec.
Definition variant_C := MkCodec variant_E variant_dec.
Definition list_C := MkCodec list_E (list_dec variant_dec).
Definition option_C {T} (C : codec T) : codec (option T) := MkCodec (option_E (c_E C)) (option_dec (c_D C)).
Definition vec_C {T} (A : aenc T) (C : codec T) : codec (list T) := MkCodec (vec_E A) (vec_dec (c_D C)).
Definition multiple_C {T} (A : aenc T) (C : codec T) : codec (list T) :=
  MkCodec (multiple_E (c_E C) A) (multiple_dec (c_D C)).
Definition map_C {K V} (KO : key K) (CK : codec K) (CV : codec V) : codec (list (K * V)) :=
  MkCodec (map_E (c_E CK) (c_E CV)) (map_dec KO (c_D CK) (c_D CV)).
Definition vecmap_C : codec (list (str * variant)) := MkCodec (map_E str_E variant_E) vecmap_dec.

(** Type aliases of /repo/src/protocol/mod.rs lines 39-46. *)
Definition vmap_C : codec (list (variant * variant)) := map_C variant_key variant_C variant_C. (* Map *)
Definition string_variant_map_C : codec (list (str * variant)) := map_C str_key str_C variant_C. (* StringVariantMap *)
Definition fields_C : codec (list (symbol * variant)) := map_C str_key symbol_C variant_C. (* Fields, Annotations *)
Definition filter_set_C : codec (list (symbol * option bytes)) := map_C str_key symbol_C (option_C bstr_C). (* FilterSet *)
Definition symbols_C : codec (list symbol) := multiple_C symbol_A symbol_C. (* Symbols, IetfLanguageTags *)
