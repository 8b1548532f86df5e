(** Model of /repo/src/codec/encode.rs and the constants of /repo/src/codec/mod.rs.

    [fn encode(&self, buf: &mut BytesMut)] becomes the list of write operations it performs, in order;
    [fn encoded_size(&self) -> usize] becomes a function to [Z].  [usize] sums are unbounded (64-bit overflow
    of a size is not modelled); [as u8] / [as u32] casts are explicit ([be_bytes] reduces its argument). *)

From Verif Require Export Types.

(** ** Format codes: /repo/src/codec/mod.rs lines 64-103 *)
Definition FC_DESCRIBED := 0x00.
Definition FC_NULL := 0x40.
Definition FC_BOOLEAN := 0x56.
Definition FC_BOOLEAN_TRUE := 0x41.
Definition FC_BOOLEAN_FALSE := 0x42.
Definition FC_UINT_0 := 0x43.
Definition FC_ULONG_0 := 0x44.
Definition FC_UBYTE := 0x50.
Definition FC_USHORT := 0x60.
Definition FC_UINT := 0x70.
Definition FC_ULONG := 0x80.
Definition FC_BYTE := 0x51.
Definition FC_SHORT := 0x61.
Definition FC_INT := 0x71.
Definition FC_LONG := 0x81.
Definition FC_SMALLUINT := 0x52.
Definition FC_SMALLULONG := 0x53.
Definition FC_SMALLINT := 0x54.
Definition FC_SMALLLONG := 0x55.
Definition FC_FLOAT := 0x72.
Definition FC_DOUBLE := 0x82.
Definition FC_CHAR := 0x73.
Definition FC_TIMESTAMP := 0x83.
Definition FC_UUID := 0x98.
Definition FC_BINARY8 := 0xa0.
Definition FC_BINARY32 := 0xb0.
Definition FC_STRING8 := 0xa1.
Definition FC_STRING32 := 0xb1.
Definition FC_SYMBOL8 := 0xa3.
Definition FC_SYMBOL32 := 0xb3.
Definition FC_LIST0 := 0x45.
Definition FC_LIST8 := 0xc0.
Definition FC_LIST32 := 0xd0.
Definition FC_MAP8 := 0xc1.
Definition FC_MAP32 := 0xd1.
Definition FC_ARRAY8 := 0xe0.
Definition FC_ARRAY32 := 0xf0.

(** ** Writes to a [BytesMut] (bytes 0.4) *)

(** [Put]: [put_u8], [put_u32_be], [put_slice], ... panic when [remaining_mut()] is too small.
    [Ext]: [extend_from_slice], which reserves first. *)
Inductive wop := Put (b : bytes) | Ext (b : bytes).

Definition wop_bytes (o : wop) : bytes := match o with Put b => b | Ext b => b end.
(** The bytes a sequence of writes appends. *)
Definition wbytes (ops : list wop) : bytes := flat_map wop_bytes ops.

Definition put_u8 (v : Z) : wop := Put (be_bytes 1 v).
Definition put_u16_be (v : Z) : wop := Put (be_bytes 2 v).
Definition put_u32_be (v : Z) : wop := Put (be_bytes 4 v).
Definition put_u64_be (v : Z) : wop := Put (be_bytes 8 v).

(** A [BytesMut]: capacity and contents ([len <= cap]). *)
Record buf := MkBuf { b_cap : Z; b_data : bytes }.

Definition remaining_mut (b : buf) : Z := b_cap b - zlen (b_data b).

(** [reserve(n)]: afterwards [remaining_mut() >= n]; [slack] is the extra room the allocator may give. *)
Definition reserve (slack : Z) (n : Z) (b : buf) : buf :=
  if n <=? remaining_mut b then b
  else MkBuf (zlen (b_data b) + n + slack) (b_data b).

Definition append (b : buf) (d : bytes) : buf := MkBuf (b_cap b) (b_data b ++ d).

(** One write; [None] is the capacity panic. *)
Definition run_op (slack : Z) (o : wop) (b : buf) : option buf :=
  match o with
  | Put d => if zlen d <=? remaining_mut b then Some (append b d) else None
  | Ext d => Some (append (reserve slack (zlen d) b) d)
  end.

Fixpoint run_ops (slack : Z) (ops : list wop) (b : buf) : option buf :=
  match ops with
  | [] => Some b
  | o :: r => match run_op slack o b with Some b' => run_ops slack r b' | None => None end
  end.

(** ** Trait dictionaries *)

(** [Encode]: /repo/src/codec/mod.rs lines 20-24. *)
Record enc (T : Type) : Type := MkEnc { e_size : T -> Z; e_enc : T -> list wop }.
(** [ArrayEncode]: mod.rs lines 26-32. *)
Record aenc (T : Type) : Type := MkAenc { a_code : Z; a_size : T -> Z; a_enc : T -> list wop }.
Arguments MkEnc {T} &. Arguments e_size {T}. Arguments e_enc {T}.
Arguments MkAenc {T} &. Arguments a_code {T}. Arguments a_size {T}. Arguments a_enc {T}.

(** [encode_null]: encode.rs lines 15-17. *)
Definition encode_null : list wop := [put_u8 FC_NULL].

(** [impl<T: FixedEncode + ArrayEncode> Encode for T]: encode.rs lines 21-29. *)
Definition fixed_size {T} (A : aenc T) (v : T) : Z := a_size A v + 1.
Definition fixed_enc {T} (A : aenc T) (v : T) : list wop := put_u8 (a_code A) :: a_enc A v.
Definition fixed {T} (A : aenc T) : enc T := MkEnc (fixed_size A) (fixed_enc A).

(** [bool]: encode.rs lines 31-51. *)
Definition bool_size (b : bool) : Z := 1.
Definition bool_enc (b : bool) : list wop :=
  [put_u8 (if b then FC_BOOLEAN_TRUE else FC_BOOLEAN_FALSE)].
Definition bool_E : enc bool := MkEnc bool_size bool_enc.
Definition bool_A : aenc bool :=
  MkAenc FC_BOOLEAN (fun _ => 1) (fun b : bool => [put_u8 (if b then 1 else 0)]).

(** [u8]: lines 53-62, [u16]: lines 64-73. *)
Definition u8_A : aenc Z := MkAenc FC_UBYTE (fun _ => 1) (fun v => [put_u8 v]).
Definition u8_E : enc Z := fixed u8_A.
Definition u16_A : aenc Z := MkAenc FC_USHORT (fun _ => 2) (fun v => [put_u16_be v]).
Definition u16_E : enc Z := fixed u16_A.

(** [u32]: lines 75-105. *)
Definition u32_size (v : Z) : Z :=
  if v =? 0 then 1 else if 255 <? v then 5 else 2.
Definition u32_enc (v : Z) : list wop :=
  if v =? 0 then [put_u8 FC_UINT_0]
  else if 255 <? v then [put_u8 FC_UINT; put_u32_be v]
  else [put_u8 FC_SMALLUINT; put_u8 v].
Definition u32_E : enc Z := MkEnc u32_size u32_enc.
Definition u32_A : aenc Z := MkAenc FC_UINT (fun _ => 4) (fun v => [put_u32_be v]).

(** [u64]: lines 107-139. *)
Definition u64_size (v : Z) : Z :=
  if v =? 0 then 1 else if 255 <? v then 9 else 2.
Definition u64_enc (v : Z) : list wop :=
  if v =? 0 then [put_u8 FC_ULONG_0]
  else if 255 <? v then [put_u8 FC_ULONG; put_u64_be v]
  else [put_u8 FC_SMALLULONG; put_u8 v].
Definition u64_E : enc Z := MkEnc u64_size u64_enc.
Definition u64_A : aenc Z := MkAenc FC_ULONG (fun _ => 8) (fun v => [put_u64_be v]).

(** [i8]: lines 141-151, [i16]: lines 153-163. *)
Definition i8_A : aenc Z := MkAenc FC_BYTE (fun _ => 1) (fun v => [put_u8 v]).
Definition i8_E : enc Z := fixed i8_A.
Definition i16_A : aenc Z := MkAenc FC_SHORT (fun _ => 2) (fun v => [put_u16_be v]).
Definition i16_E : enc Z := fixed i16_A.

(** [i32]: lines 165-195. *)
Definition i32_size (v : Z) : Z := if (127 <? v) || (v <? -128) then 5 else 2.
Definition i32_enc (v : Z) : list wop :=
  if (127 <? v) || (v <? -128) then [put_u8 FC_INT; put_u32_be v]
  else [put_u8 FC_SMALLINT; put_u8 v].
Definition i32_E : enc Z := MkEnc i32_size i32_enc.
Definition i32_A : aenc Z := MkAenc FC_INT (fun _ => 4) (fun v => [put_u32_be v]).

(** [i64]: lines 197-225. *)
Definition i64_size (v : Z) : Z := if (127 <? v) || (v <? -128) then 9 else 2.
Definition i64_enc (v : Z) : list wop :=
  if (127 <? v) || (v <? -128) then [put_u8 FC_LONG; put_u64_be v]
  else [put_u8 FC_SMALLLONG; put_u8 v].
Definition i64_E : enc Z := MkEnc i64_size i64_enc.
Definition i64_A : aenc Z := MkAenc FC_LONG (fun _ => 8) (fun v => [put_u64_be v]).

(** [f32]: lines 227-239, [f64]: lines 241-251, on bit patterns. *)
Definition f32_A : aenc Z := MkAenc FC_FLOAT (fun _ => 4) (fun v => [put_u32_be v]).
Definition f32_E : enc Z := fixed f32_A.
Definition f64_A : aenc Z := MkAenc FC_DOUBLE (fun _ => 8) (fun v => [put_u64_be v]).
Definition f64_E : enc Z := fixed f64_A.

(** [char]: lines 253-263. *)
Definition char_A : aenc Z := MkAenc FC_CHAR (fun _ => 4) (fun v => [put_u32_be v]).
Definition char_E : enc Z := fixed char_A.

(** [DateTime<Utc>]: lines 265-276.  [timestamp_subsec_millis] is nanoseconds / 10^6. *)
Definition datetime_millis (t : datetime) : Z := dt_secs t * 1000 + dt_nanos t / 1000000.
Definition datetime_A : aenc datetime :=
  MkAenc FC_TIMESTAMP (fun _ => 8) (fun t => [put_u64_be (datetime_millis t)]).
Definition datetime_E : enc datetime := fixed datetime_A.

(** [Uuid]: lines 278-288. *)
Definition uuid_A : aenc bytes := MkAenc FC_UUID (fun _ => 16) (fun u => [Ext u]).
Definition uuid_E : enc bytes := fixed uuid_A.

(** The size and prefix shared, textually, by [Bytes] (lines 290-309), [ByteStr] (321-340), [str] (351-369),
    [Str] (382-400), [Symbol] (402-420) and [StaticSymbol] (433-451). *)
Definition var_size (len : Z) : Z := (if 255 <? len then 5 else 2) + len.
Definition var_enc (code8 code32 : Z) (len : Z) (data : bytes) : list wop :=
  (if 255 <? len then [put_u8 code32; put_u32_be len] else [put_u8 code8; put_u8 len])
  ++ [Put data].

Definition bin_size (b : bytes) : Z := var_size (zlen b).
Definition bin_enc (b : bytes) : list wop := var_enc FC_BINARY8 FC_BINARY32 (zlen b) b.
Definition bin_E : enc bytes := MkEnc bin_size bin_enc.
(** [ArrayEncode for Bytes]: lines 311-319. *)
Definition bin_A : aenc bytes :=
  MkAenc FC_BINARY32 (fun b => 4 + zlen b) (fun b => [put_u32_be (zlen b); Put b]).

(** [ByteStr] and [str]. *)
Definition bstr_size (b : bytes) : Z := var_size (zlen b).
Definition bstr_enc (b : bytes) : list wop := var_enc FC_STRING8 FC_STRING32 (zlen b) b.
Definition bstr_E : enc bytes := MkEnc bstr_size bstr_enc.
(** [ArrayEncode for ByteStr] lines 341-349, for [str] lines 371-380. *)
Definition bstr_A : aenc bytes :=
  MkAenc FC_STRING32 (fun b => 4 + zlen b) (fun b => [put_u32_be (zlen b); Put b]).

(** [Str]: lines 382-400. *)
Definition str_size (s : str) : Z := var_size (str_len s).
Definition str_enc (s : str) : list wop := var_enc FC_STRING8 FC_STRING32 (zlen (str_bytes s)) (str_bytes s).
Definition str_E : enc str := MkEnc str_size str_enc.

(** [Symbol]: lines 402-431. *)
Definition symbol_size (s : symbol) : Z := var_size (str_len s).
Definition symbol_enc (s : symbol) : list wop :=
  var_enc FC_SYMBOL8 FC_SYMBOL32 (zlen (str_bytes s)) (str_bytes s).
Definition symbol_E : enc symbol := MkEnc symbol_size symbol_enc.
Definition symbol_A : aenc symbol :=
  MkAenc FC_SYMBOL32 (fun s => 4 + str_len s) (fun s => [put_u32_be (str_len s); Put (str_bytes s)]).

(** [StaticSymbol]: lines 433-451. *)
Definition static_symbol_size (s : bytes) : Z := var_size (zlen s).
Definition static_symbol_enc (s : bytes) : list wop := var_enc FC_SYMBOL8 FC_SYMBOL32 (zlen s) s.
Definition static_symbol_E : enc bytes := MkEnc static_symbol_size static_symbol_enc.

(** [map_encoded_size]: lines 453-458. *)
Definition map_encoded_size {K V} (sk : K -> Z) (sv : V -> Z) (m : list (K * V)) : Z :=
  zsum (fun kv : K * V => let (k, v) := kv in sk k + sv v) m.
(** The loop [for (k, v) in self { k.encode(buf); v.encode(buf); }]. *)
Definition map_entries {K V} (ek : K -> list wop) (ev : V -> list wop) (m : list (K * V)) : list wop :=
  flat_map (fun kv : K * V => let (k, v) := kv in ek k ++ ev v) m.

(** [HashMap]: lines 459-485.  [VecVariantMap] (lines 504-538) is the same code on a vector of entries. *)
Definition map_size {K V} (sk : K -> Z) (sv : V -> Z) (m : list (K * V)) : Z :=
  let size := map_encoded_size sk sv m in
  (if 255 <? size + 1 then 9 else 3) + size.
Definition map_enc {K V} (sk : K -> Z) (ek : K -> list wop) (sv : V -> Z) (ev : V -> list wop)
    (m : list (K * V)) : list wop :=
  let count := zlen m * 2 in
  let size := map_encoded_size sk sv m in
  (if 255 <? size + 1
   then [put_u8 FC_MAP32; put_u32_be (size + 4); put_u32_be count]
   else [put_u8 FC_MAP8; put_u8 (size + 1); put_u8 count])
  ++ map_entries ek ev m.
Definition map_E {K V} (EK : enc K) (EV : enc V) : enc (list (K * V)) :=
  MkEnc (map_size (e_size EK) (e_size EV)) (map_enc (e_size EK) (e_enc EK) (e_size EV) (e_enc EV)).
(** [ArrayEncode for HashMap]: lines 486-502. *)
Definition map_A {K V} (EK : enc K) (EV : enc V) : aenc (list (K * V)) :=
  MkAenc FC_MAP32
    (fun m : list (K * V) => 8 + map_encoded_size (e_size EK) (e_size EV) m)
    (fun m : list (K * V) => [put_u32_be (map_encoded_size (e_size EK) (e_size EV) m + 4); put_u32_be (zlen m * 2)]
              ++ map_entries (e_enc EK) (e_enc EV) m).

(** [array_encoded_size]: lines 540-542. *)
Definition array_encoded_size {T} (A : aenc T) (l : list T) : Z := zsum (a_size A) l.
(** [Vec<T>]: lines 544-572. *)
Definition vec_size {T} (A : aenc T) (l : list T) : Z :=
  let content_size := array_encoded_size A l in
  (if 255 <? content_size + 1 then 10 else 4) + content_size.
Definition vec_enc {T} (A : aenc T) (l : list T) : list wop :=
  let size := array_encoded_size A l in
  (if 255 <? size + 1
   then [put_u8 FC_ARRAY32; put_u32_be (size + 5); put_u32_be (zlen l)]
   else [put_u8 FC_ARRAY8; put_u8 (size + 2); put_u8 (zlen l)])
  ++ [put_u8 (a_code A)] ++ flat_map (a_enc A) l.
Definition vec_E {T} (A : aenc T) : enc (list T) := MkEnc (vec_size A) (vec_enc A).

(** [Multiple<T>]: lines 574-594. *)
Definition multiple_size {T} (E : enc T) (A : aenc T) (l : list T) : Z :=
  match l with
  | [x] => e_size E x
  | _ => vec_size A l
  end.
Definition multiple_enc {T} (E : enc T) (A : aenc T) (l : list T) : list wop :=
  match l with
  | [x] => e_enc E x
  | _ => vec_enc A l
  end.
Definition multiple_E {T} (E : enc T) (A : aenc T) : enc (list T) :=
  MkEnc (multiple_size E A) (multiple_enc E A).

(** [list_encoded_size] and [List]: lines 596-626.  The format codes are the array ones, as in the source. *)
Definition list_encoded_size {T} (sv : T -> Z) (l : list T) : Z := zsum sv l.
Definition list_size {T} (sv : T -> Z) (l : list T) : Z :=
  let content_size := list_encoded_size sv l in
  (if 255 <? content_size + 1 then 9 else 3) + content_size.
Definition list_enc {T} (sv : T -> Z) (ev : T -> list wop) (l : list T) : list wop :=
  let size := list_encoded_size sv l in
  (if 255 <? size + 1
   then [put_u8 FC_ARRAY32; put_u32_be (size + 4); put_u32_be (zlen l)]
   else [put_u8 FC_ARRAY8; put_u8 (size + 1); put_u8 (zlen l)])
  ++ flat_map ev l.

(** [Descriptor]: lines 701-716. *)
Definition descriptor_size (d : descriptor) : Z :=
  match d with
  | DUlong v => 1 + u64_size v
  | DSymbol s => 1 + symbol_size s
  end.
Definition descriptor_enc (d : descriptor) : list wop :=
  put_u8 FC_DESCRIBED ::
  match d with
  | DUlong v => u64_enc v
  | DSymbol s => symbol_enc s
  end.
Definition descriptor_E : enc descriptor := MkEnc descriptor_size descriptor_enc.

(** [Variant]: lines 628-686. *)
Fixpoint variant_size (v : variant) : Z :=
  match v with
  | VNull => 1
  | VBoolean b => bool_size b
  | VUbyte b => fixed_size u8_A b
  | VUshort s => fixed_size u16_A s
  | VUint i => u32_size i
  | VUlong l => u64_size l
  | VByte b => fixed_size i8_A b
  | VShort s => fixed_size i16_A s
  | VInt i => i32_size i
  | VLong l => i64_size l
  | VFloat f => fixed_size f32_A f
  | VDouble d => fixed_size f64_A d
  | VChar c => fixed_size char_A c
  | VTimestamp t => fixed_size datetime_A t
  | VUuid u => fixed_size uuid_A u
  | VBinary b => bin_size b
  | VString s => str_size s
  | VSymbol s => symbol_size s
  | VStaticSymbol s => static_symbol_size s
  | VList l => list_size variant_size l
  | VMap m => map_size variant_size variant_size m
  | VDescribed d w => descriptor_size d + variant_size w
  end.

Fixpoint variant_enc (v : variant) : list wop :=
  match v with
  | VNull => encode_null
  | VBoolean b => bool_enc b
  | VUbyte b => fixed_enc u8_A b
  | VUshort s => fixed_enc u16_A s
  | VUint i => u32_enc i
  | VUlong l => u64_enc l
  | VByte b => fixed_enc i8_A b
  | VShort s => fixed_enc i16_A s
  | VInt i => i32_enc i
  | VLong l => i64_enc l
  | VFloat f => fixed_enc f32_A f
  | VDouble d => fixed_enc f64_A d
  | VChar c => fixed_enc char_A c
  | VTimestamp t => fixed_enc datetime_A t
  | VUuid u => fixed_enc uuid_A u
  | VBinary b => bin_enc b
  | VString s => str_enc s
  | VSymbol s => symbol_enc s
  | VStaticSymbol s => static_symbol_enc s
  | VList l => list_enc variant_size variant_enc l
  | VMap m => map_enc variant_size variant_enc variant_size variant_enc m
  | VDescribed d w => descriptor_enc d ++ variant_enc w
  end.
Definition variant_E : enc variant := MkEnc variant_size variant_enc.
(** [List] as a type of its own. *)
Definition list_E : enc (list variant) := MkEnc (list_size variant_size) (list_enc variant_size variant_enc).

(** [Option<T>]: lines 688-699. *)
Definition option_size {T} (E : enc T) (o : option T) : Z :=
  match o with Some v => e_size E v | None => 1 end.
Definition option_enc {T} (E : enc T) (o : option T) : list wop :=
  match o with Some v => e_enc E v | None => encode_null end.
Definition option_E {T} (E : enc T) : enc (option T) := MkEnc (option_size E) (option_enc E).
