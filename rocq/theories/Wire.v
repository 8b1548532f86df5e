(** Specification: the AMQP 1.0 encodings of the primitive types, lists, maps and described values, written from the
    standard (OASIS AMQP 1.0 part 1, section 1.6).  [wire v bs] says that [bs] is one of the encodings the standard allows
    for [v].  All codes are literal; nothing is taken from the model but the type of values. *)

From Verif Require Import Types Utf8Spec Valid.

(** Two's complement big-endian integers. *)
Definition be2 (v : Z) : bytes := [v / 2 ^ 8 mod 256; v mod 256].
Definition be4 (v : Z) : bytes := [v / 2 ^ 24 mod 256; v / 2 ^ 16 mod 256; v / 2 ^ 8 mod 256; v mod 256].
Definition be8 (v : Z) : bytes :=
  [v / 2 ^ 56 mod 256; v / 2 ^ 48 mod 256; v / 2 ^ 40 mod 256; v / 2 ^ 32 mod 256;
   v / 2 ^ 24 mod 256; v / 2 ^ 16 mod 256; v / 2 ^ 8 mod 256; v mod 256].

(** Milliseconds since the epoch as an instant. *)
Definition instant (ms : Z) : datetime := MkDT (ms / 1000) (ms mod 1000 * 1000000).

(** [boolean], [uint], [ulong], [int], [long], [binary], [string], [symbol]: the types with several encodings. *)
Inductive wire_boolean : bool -> bytes -> Prop :=
| WB_true : wire_boolean true [0x41]
| WB_false : wire_boolean false [0x42]
| WB_true8 : wire_boolean true [0x56; 0x01]
| WB_false8 : wire_boolean false [0x56; 0x00].
Inductive wire_uint : Z -> bytes -> Prop :=
| WU_0 : wire_uint 0 [0x43]
| WU_8 v : 0 <= v < 256 -> wire_uint v [0x52; v]
| WU_32 v : 0 <= v < 2 ^ 32 -> wire_uint v (0x70 :: be4 v).
Inductive wire_ulong : Z -> bytes -> Prop :=
| WUL_0 : wire_ulong 0 [0x44]
| WUL_8 v : 0 <= v < 256 -> wire_ulong v [0x53; v]
| WUL_64 v : 0 <= v < 2 ^ 64 -> wire_ulong v (0x80 :: be8 v).
Inductive wire_int : Z -> bytes -> Prop :=
| WI_8 v : -128 <= v < 128 -> wire_int v [0x54; v mod 256]
| WI_32 v : - 2 ^ 31 <= v < 2 ^ 31 -> wire_int v (0x71 :: be4 v).
Inductive wire_long : Z -> bytes -> Prop :=
| WL_8 v : -128 <= v < 128 -> wire_long v [0x55; v mod 256]
| WL_64 v : - 2 ^ 63 <= v < 2 ^ 63 -> wire_long v (0x81 :: be8 v).
(** variable width: one or four bytes of length *)
Inductive wire_var (code8 code32 : Z) : bytes -> bytes -> Prop :=
| WV_8 b : zlen b < 2 ^ 8 -> wire_var code8 code32 b (code8 :: zlen b :: b)
| WV_32 b : zlen b < 2 ^ 32 -> wire_var code8 code32 b (code32 :: be4 (zlen b) ++ b).
Definition wire_binary (b bs : bytes) : Prop := bytes_ok b /\ wire_var 0xa0 0xb0 b bs.
Definition wire_string (b bs : bytes) : Prop := is_utf8 b /\ wire_var 0xa1 0xb1 b bs.
(** The standard restricts symbols to ASCII; the crate's [Symbol] is any string. *)
Definition wire_symbol (b bs : bytes) : Prop := is_utf8 b /\ wire_var 0xa3 0xb3 b bs.

Inductive wire_descriptor : descriptor -> bytes -> Prop :=
| WD_ulong v bs : wire_ulong v bs -> wire_descriptor (DUlong v) bs
| WD_symbol b bs : wire_symbol b bs -> wire_descriptor (DSymbol (SByteStr b)) bs.

Inductive wire : variant -> bytes -> Prop :=
| W_null : wire VNull [0x40]
| W_boolean b bs : wire_boolean b bs -> wire (VBoolean b) bs
| W_ubyte v : 0 <= v < 2 ^ 8 -> wire (VUbyte v) [0x50; v]
| W_ushort v : 0 <= v < 2 ^ 16 -> wire (VUshort v) (0x60 :: be2 v)
| W_uint v bs : wire_uint v bs -> wire (VUint v) bs
| W_ulong v bs : wire_ulong v bs -> wire (VUlong v) bs
| W_byte v : - 2 ^ 7 <= v < 2 ^ 7 -> wire (VByte v) [0x51; v mod 256]
| W_short v : - 2 ^ 15 <= v < 2 ^ 15 -> wire (VShort v) (0x61 :: be2 v)
| W_int v bs : wire_int v bs -> wire (VInt v) bs
| W_long v bs : wire_long v bs -> wire (VLong v) bs
| W_float v : 0 <= v < 2 ^ 32 -> wire (VFloat v) (0x72 :: be4 v)
| W_double v : 0 <= v < 2 ^ 64 -> wire (VDouble v) (0x82 :: be8 v)
| W_char c : scalar c -> wire (VChar c) (0x73 :: be4 c)
| W_timestamp ms : - 2 ^ 63 <= ms < 2 ^ 63 -> wire (VTimestamp (instant ms)) (0x83 :: be8 ms)
| W_uuid u : bytes_ok u -> zlen u = 16 -> wire (VUuid u) (0x98 :: u)
| W_binary b bs : wire_binary b bs -> wire (VBinary b) bs
| W_string b bs : wire_string b bs -> wire (VString (SByteStr b)) bs
| W_symbol b bs : wire_symbol b bs -> wire (VSymbol (SByteStr b)) bs
| W_list0 : wire (VList []) [0x45]
| W_list8 l bs : wire_seq l bs -> zlen bs + 1 < 2 ^ 8 ->
    wire (VList l) (0xc0 :: zlen bs + 1 :: zlen l :: bs)
| W_list32 l bs : wire_seq l bs -> zlen bs + 4 < 2 ^ 32 ->
    wire (VList l) (0xd0 :: be4 (zlen bs + 4) ++ be4 (zlen l) ++ bs)
| W_map8 m bs : wire_entries m bs -> zlen bs + 1 < 2 ^ 8 ->
    wire (VMap m) (0xc1 :: zlen bs + 1 :: 2 * zlen m :: bs)
| W_map32 m bs : wire_entries m bs -> zlen bs + 4 < 2 ^ 32 ->
    wire (VMap m) (0xd1 :: be4 (zlen bs + 4) ++ be4 (2 * zlen m) ++ bs)
| W_described d v bd bv : wire_descriptor d bd -> wire v bv -> wire (VDescribed d v) (0x00 :: bd ++ bv)
with wire_seq : list variant -> bytes -> Prop :=
| WS_nil : wire_seq [] []
| WS_cons v l b bs : wire v b -> wire_seq l bs -> wire_seq (v :: l) (b ++ bs)
with wire_entries : list (variant * variant) -> bytes -> Prop :=
| WE_nil : wire_entries [] []
| WE_cons k v m bk bv bs : wire k bk -> wire v bv -> wire_entries m bs -> wire_entries ((k, v) :: m) (bk ++ bv ++ bs).

Scheme wire_mind := Induction for wire Sort Prop
  with wire_seq_mind := Induction for wire_seq Sort Prop
  with wire_entries_mind := Induction for wire_entries Sort Prop.
Combined Scheme wire_mutind from wire_mind, wire_seq_mind, wire_entries_mind.

(** ** The value a decoder is expected to return for what was encoded

    The wire format does not record how a text was stored, has one symbol type, and counts time in milliseconds. *)
Definition canon_str (s : str) : str := SByteStr (str_bytes s).
Definition canon_descriptor (d : descriptor) : descriptor :=
  match d with
  | DUlong v => DUlong v
  | DSymbol s => DSymbol (canon_str s)
  end.
Definition millis (t : datetime) : Z := dt_secs t * 1000 + dt_nanos t / 1000000.
Fixpoint canon (v : variant) : variant :=
  match v with
  | VTimestamp t => VTimestamp (instant (millis t))
  | VString s => VString (canon_str s)
  | VSymbol s => VSymbol (canon_str s)
  | VStaticSymbol s => VSymbol (SByteStr s)
  | VList l => VList (map canon l)
  | VMap m => VMap (map (fun kv : variant * variant => let (k, w) := kv in (canon k, canon w)) m)
  | VDescribed d w => VDescribed (canon_descriptor d) (canon w)
  | _ => v
  end.

(** ** What the crate does not handle

    Instants for which the crate's conversion from milliseconds is right: not in the second before the epoch, and not on
    a whole second before the epoch. *)
Definition timestamp_supported (t : datetime) : Prop :=
  chrono_min_secs <= dt_secs t <= chrono_max_secs /\
  (0 <= dt_secs t \/ (dt_secs t < -1 /\ dt_nanos t <> 0)).

(** [decodable v]: no descriptor is the number 0 (the one-byte form is refused), timestamps are supported, and the keys of
    every map can be hashed and are pairwise different. *)
Fixpoint decodable (v : variant) : Prop :=
  match v with
  | VTimestamp t => timestamp_supported t
  | VList l => all_prop decodable l
  | VMap m =>
    all_prop (fun kv : variant * variant =>
                let (k, w) := kv in decodable k /\ variant_hashable k = true /\ decodable w) m
    /\ distinct_keys variant_eqb m
  | VDescribed d w => d <> DUlong 0 /\ decodable w
  | _ => True
  end.

(** No lists inside: the encoder writes lists with the codes of arrays. *)
Fixpoint list_free (v : variant) : Prop :=
  match v with
  | VList _ => False
  | VMap m => all_prop (fun kv : variant * variant => let (k, w) := kv in list_free k /\ list_free w) m
  | VDescribed _ w => list_free w
  | _ => True
  end.
