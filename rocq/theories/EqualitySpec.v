(** Specification: when two values are the same, said without the comparison functions of the code. *)

From Verif Require Import Types Hash.

(** ** Numbers of IEEE 754 binary formats
    A format has [e] bits of exponent and [m] bits of significand.  [FNum n] is the number [n] times the smallest positive
    number of the format, halved; so [FNum 0] is zero, whatever its sign. *)
Inductive float_value := FNan | FInf (negative : bool) | FNum (n : Z).
Definition float_of (e m bits : Z) : float_value :=
  let negative := bits / 2 ^ (e + m) mod 2 =? 1 in
  let exponent := bits / 2 ^ m mod 2 ^ e in
  let fraction := bits mod 2 ^ m in
  if exponent =? 2 ^ e - 1 then (if fraction =? 0 then FInf negative else FNan)
  else
    let size := if exponent =? 0 then 2 * fraction else (2 ^ m + fraction) * 2 ^ exponent in
    FNum (if negative then - size else size).
Definition binary32 (bits : Z) : float_value := float_of 8 23 bits.
Definition binary64 (bits : Z) : float_value := float_of 11 52 bits.

Inductive same_descriptor : descriptor -> descriptor -> Prop :=
| SD_ulong v : same_descriptor (DUlong v) (DUlong v)
| SD_symbol s t : str_bytes s = str_bytes t -> same_descriptor (DSymbol s) (DSymbol t).

(** Same kind and same contents.  Texts are the same if their bytes are, floats if they are the same number or both not
    a number; maps if they have as many entries and each entry of one is in the other.  A [Symbol] and a [StaticSymbol]
    are of different kinds. *)
Inductive same_value : variant -> variant -> Prop :=
| SV_null : same_value VNull VNull
| SV_boolean b : same_value (VBoolean b) (VBoolean b)
| SV_ubyte v : same_value (VUbyte v) (VUbyte v)
| SV_ushort v : same_value (VUshort v) (VUshort v)
| SV_uint v : same_value (VUint v) (VUint v)
| SV_ulong v : same_value (VUlong v) (VUlong v)
| SV_byte v : same_value (VByte v) (VByte v)
| SV_short v : same_value (VShort v) (VShort v)
| SV_int v : same_value (VInt v) (VInt v)
| SV_long v : same_value (VLong v) (VLong v)
| SV_float a b : binary32 a = binary32 b -> same_value (VFloat a) (VFloat b)
| SV_double a b : binary64 a = binary64 b -> same_value (VDouble a) (VDouble b)
| SV_char c : same_value (VChar c) (VChar c)
| SV_timestamp t : same_value (VTimestamp t) (VTimestamp t)
| SV_uuid u : same_value (VUuid u) (VUuid u)
| SV_binary b : same_value (VBinary b) (VBinary b)
| SV_string s t : str_bytes s = str_bytes t -> same_value (VString s) (VString t)
| SV_symbol s t : str_bytes s = str_bytes t -> same_value (VSymbol s) (VSymbol t)
| SV_static_symbol s : same_value (VStaticSymbol s) (VStaticSymbol s)
| SV_list l m : Forall2 same_value l m -> same_value (VList l) (VList m)
| SV_map l m : length l = length m ->
    (forall k v, In (k, v) l -> exists k' v', In (k', v') m /\ same_value k k' /\ same_value v v') ->
    same_value (VMap l) (VMap m)
| SV_described d e v w : same_descriptor d e -> same_value v w -> same_value (VDescribed d v) (VDescribed e w).

(** ** Hashing *)
(** What is assumed of other crates: floats that are the same number are hashed alike, and a [String<Bytes>] is hashed as
    the [str] it holds. *)
Definition floats_hashed (H : hashers) : Prop :=
  (forall a b, 0 <= a < 2 ^ 32 -> 0 <= b < 2 ^ 32 -> binary32 a = binary32 b -> h_f32 H a = h_f32 H b) /\
  (forall a b, 0 <= a < 2 ^ 64 -> 0 <= b < 2 ^ 64 -> binary64 a = binary64 b -> h_f64 H a = h_f64 H b).
Definition texts_hashed (H : hashers) : Prop := forall b, h_bytestr H b = [HWrite b; HU8 0xff].

(** Different values of other crates are told apart by their calls, and where the calls for one end can be seen from them. *)
Definition externals_told (H : hashers) : Prop :=
  (forall a b r s, 0 <= a < 2 ^ 32 -> 0 <= b < 2 ^ 32 -> h_f32 H a ++ r = h_f32 H b ++ s -> binary32 a = binary32 b /\ r = s) /\
  (forall a b r s, 0 <= a < 2 ^ 64 -> 0 <= b < 2 ^ 64 -> h_f64 H a ++ r = h_f64 H b ++ s -> binary64 a = binary64 b /\ r = s) /\
  (forall t u r s, h_datetime H t ++ r = h_datetime H u ++ s -> t = u /\ r = s).

(** Hashing a value comes to a map: the value is one, or there is one in its items. *)
Inductive meets_map : variant -> Prop :=
| MM_map m : meets_map (VMap m)
| MM_list l x : In x l -> meets_map x -> meets_map (VList l)
| MM_described d v : meets_map v -> meets_map (VDescribed d v).

(** For the examples. Hashers as they are assumed to be: floats by the number they stand for; and a [String<Bytes>] hashed as the bytes in it. *)
Definition number_hash (f : float_value) : feed := match f with FNan => [HU64 1] | FInf s => [HU64 (if s then 2 else 3)] | FNum n => [HI64 n] end.
Definition some_hashers : hashers := MkHashers (fun b => [HWrite b; HU8 0xff]) (fun b => number_hash (binary32 b)) (fun b => number_hash (binary64 b))
  (fun t => [HI64 (dt_secs t); HU32 (dt_nanos t)]).
Definition slice_hashers : hashers := MkHashers slice_hash (h_f32 some_hashers) (h_f64 some_hashers) (h_datetime some_hashers).
