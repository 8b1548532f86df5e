(** Model of /repo/src/types/*.rs and /repo/src/errors.rs. *)

From Coq Require Import String.
From Verif Require Export Base Utf8.

(** [Str], /repo/src/types/mod.rs lines 73-77.  [ByteStr(String<Bytes>)] or [Static(&'static str)], both given by
    their UTF-8 bytes.  The invariant that the bytes are UTF-8 is [str_ok] below, kept by Rust's types. *)
Inductive str := SByteStr (b : bytes) | SStatic (b : bytes).

(** [Str::as_bytes], [Str::as_str] and [Str::as_bytes_str]: types/mod.rs lines 84-103. All three give the text. *)
Definition str_bytes (s : str) : bytes :=
  match s with
  | SByteStr b => b
  | SStatic b => b
  end.

(** [Str::len]: types/mod.rs lines 105-110. *)
Definition str_len (s : str) : Z :=
  match s with
  | SByteStr b => zlen b
  | SStatic b => zlen b
  end.

(** [Str::from_str]: types/mod.rs lines 80-82. *)
Definition str_from_str (b : bytes) : str := SByteStr b.
(** [From<&'static str> for Str]: types/mod.rs lines 113-117; [From<String<Bytes>>]: lines 119-123. *)
Definition str_from_static (b : bytes) : str := SStatic b.
Definition str_from_bytestr (b : bytes) : str := SByteStr b.

(** [impl PartialEq<Str> for Str]: types/mod.rs lines 140-153. *)
Definition str_eqb (a b : str) : bool :=
  match a with
  | SByteStr s =>
    match b with
    | SByteStr o => bytes_eqb s o
    | SStatic o => bytes_eqb s o
    end
  | SStatic s =>
    match b with
    | SByteStr o => bytes_eqb o s
    | SStatic o => bytes_eqb s o
    end
  end.

(** [impl PartialEq<str> for Str]: types/mod.rs lines 155-166. *)
Definition str_eq_text (a : str) (other : bytes) : bool :=
  match a with
  | SByteStr t => bytes_eqb t other
  | SStatic s => bytes_eqb s other
  end.

(** Lexicographic order of byte strings, as [Ord for str]. *)
Fixpoint bytes_cmp (a b : bytes) : comparison :=
  match a, b with
  | [], [] => Eq
  | [], _ => Lt
  | _, [] => Gt
  | x :: a', y :: b' => match x ?= y with Eq => bytes_cmp a' b' | c => c end
  end.

(** [derive(Ord)] for [Str], types/mod.rs line 73: variants in declaration order first, then contents. *)
Definition str_cmp (a b : str) : comparison :=
  match a, b with
  | SByteStr x, SByteStr y => bytes_cmp x y
  | SByteStr _, SStatic _ => Lt
  | SStatic _, SByteStr _ => Gt
  | SStatic x, SStatic y => bytes_cmp x y
  end.

(** [Symbol(pub Str)], /repo/src/types/symbol.rs lines 8-9: the newtype wrapper is dropped.
    [as_bytes], [as_str], [len] (lines 16-30) delegate to [Str]. *)
Definition symbol := str.
(** [Symbol::from_slice]: symbol.rs lines 12-14. *)
Definition symbol_from_slice (b : bytes) : symbol := SByteStr b.
(** [From<&'static str> for Symbol]: symbol.rs lines 33-37. *)
Definition symbol_from_static (b : bytes) : symbol := SStatic b.

(** [Descriptor]: types/mod.rs lines 13-17. *)
Inductive descriptor := DUlong (v : Z) | DSymbol (s : symbol).

(** derived [PartialEq] for [Descriptor]: types/mod.rs line 13. *)
Definition descriptor_eqb (a b : descriptor) : bool :=
  match a, b with
  | DUlong x, DUlong y => x =? y
  | DSymbol x, DSymbol y => str_eqb x y
  | _, _ => false
  end.

(** [chrono::DateTime<Utc>]: seconds since the epoch and nanoseconds in [0, 2*10^9) (a leap second is
    represented by nanoseconds >= 10^9), chrono 0.4. *)
Record datetime := MkDT { dt_secs : Z; dt_nanos : Z }.

(** Range of chrono 0.4: years -262144 to 262143. External constants. *)
Definition chrono_min_secs : Z := -8334632851200.
Definition chrono_max_secs : Z := 8210298412799.

Definition datetime_eqb (a b : datetime) : bool :=
  (dt_secs a =? dt_secs b) && (dt_nanos a =? dt_nanos b).

(** [Variant], /repo/src/types/variant.rs lines 12-85.
    Floats are bit patterns.  [VString], [VSymbol], [VStaticSymbol] keep how the text is stored.
    [List(Vec<Variant>)] (types/mod.rs 56-57) is a list.  [VariantMap { map: HashMap<Variant, Variant> }]
    (variant.rs 127-130) is the list of entries in the order in which the map iterates. *)
Inductive variant :=
| VNull
| VBoolean (b : bool)
| VUbyte (v : Z)
| VUshort (v : Z)
| VUint (v : Z)
| VUlong (v : Z)
| VByte (v : Z)
| VShort (v : Z)
| VInt (v : Z)
| VLong (v : Z)
| VFloat (bits : Z)
| VDouble (bits : Z)
| VChar (c : Z)
| VTimestamp (t : datetime)
| VUuid (u : bytes)
| VBinary (b : bytes)
| VString (s : str)
| VSymbol (s : symbol)
| VStaticSymbol (s : bytes)
| VList (l : list variant)
| VMap (m : list (variant * variant))
| VDescribed (d : descriptor) (v : variant).

(** [OrderedFloat<f32>] / [OrderedFloat<f64>] equality (ordered-float 1.0): all NaNs are equal, otherwise IEEE [==]
    (so 0.0 == -0.0), on bit patterns. *)
Definition f32_is_nan (b : Z) : bool := 0x7F800000 <? b mod 2 ^ 31.
Definition f64_is_nan (b : Z) : bool := 0x7FF0000000000000 <? b mod 2 ^ 63.
Definition f32_eqb (a b : Z) : bool :=
  if f32_is_nan a then f32_is_nan b
  else if f32_is_nan b then false
  else (a =? b) || ((a mod 2 ^ 31 =? 0) && (b mod 2 ^ 31 =? 0)).
Definition f64_eqb (a b : Z) : bool :=
  if f64_is_nan a then f64_is_nan b
  else if f64_is_nan b then false
  else (a =? b) || ((a mod 2 ^ 63 =? 0) && (b mod 2 ^ 63 =? 0)).

(** derived [PartialEq] for [Variant] (variant.rs line 12), with [HashMap]'s equality for maps: same number of
    entries, and every entry of the left map is found in the right map with an equal value. *)
Fixpoint variant_eqb (a b : variant) {struct a} : bool :=
  match a, b with
  | VNull, VNull => true
  | VBoolean x, VBoolean y => Bool.eqb x y
  | VUbyte x, VUbyte y => x =? y
  | VUshort x, VUshort y => x =? y
  | VUint x, VUint y => x =? y
  | VUlong x, VUlong y => x =? y
  | VByte x, VByte y => x =? y
  | VShort x, VShort y => x =? y
  | VInt x, VInt y => x =? y
  | VLong x, VLong y => x =? y
  | VFloat x, VFloat y => f32_eqb x y
  | VDouble x, VDouble y => f64_eqb x y
  | VChar x, VChar y => x =? y
  | VTimestamp x, VTimestamp y => datetime_eqb x y
  | VUuid x, VUuid y => bytes_eqb x y
  | VBinary x, VBinary y => bytes_eqb x y
  | VString x, VString y => str_eqb x y
  | VSymbol x, VSymbol y => str_eqb x y
  | VStaticSymbol x, VStaticSymbol y => bytes_eqb x y
  | VList l, VList m =>
    (fix list_eqb (l m : list variant) {struct l} : bool :=
       match l, m with
       | [], [] => true
       | x :: l', y :: m' => variant_eqb x y && list_eqb l' m'
       | _, _ => false
       end) l m
  | VMap l, VMap m =>
    (zlen l =? zlen m) &&
    (fix all_in (l : list (variant * variant)) : bool :=
       match l with
       | [] => true
       | (k, v) :: l' =>
         (fix found (m : list (variant * variant)) : bool :=
            match m with
            | [] => false
            | (k', v') :: m' => if variant_eqb k k' then variant_eqb v v' else found m'
            end) m && all_in l'
       end) l
  | VDescribed d v, VDescribed e w => descriptor_eqb d e && variant_eqb v w
  | _, _ => false
  end.

(** Whether hashing a [Variant] returns: [Hash for VariantMap] is [unimplemented!()] (variant.rs lines 138-142),
    and the derived [Hash] descends into lists and described values. *)
Fixpoint variant_hashable (v : variant) : bool :=
  match v with
  | VMap _ => false
  | VList l => forallb variant_hashable l
  | VDescribed _ w => variant_hashable w
  | _ => true
  end.

(** [PartialEq<str> for Variant]: variant.rs lines 99-107. *)
Definition variant_eq_text (v : variant) (other : bytes) : bool :=
  match v with
  | VString s => str_eq_text s other
  | VSymbol s => str_eq_text s other
  | _ => false
  end.

(** [Variant::as_str] / [as_bytes_str]: variant.rs lines 110-124. *)
Definition variant_as_str (v : variant) : option bytes :=
  match v with
  | VString s => Some (str_bytes s)
  | VSymbol s => Some (str_bytes s)
  | _ => None
  end.

(** [HashMap]: association list in iteration order.  [hm_get] is [get]; [hm_insert] is [insert] into a map whose keys
    are compared by [eqb]: the value of an equal key is replaced (hashbrown keeps the old key), otherwise the
    entry is added.  Where hashbrown puts a new entry in its iteration order is unspecified; the model adds it
    at the end, and theorems about maps are stated for every order of entries. *)
Fixpoint hm_get {K V} (eqb : K -> K -> bool) (k : K) (m : list (K * V)) : option V :=
  match m with
  | [] => None
  | (k', v') :: m' => if eqb k k' then Some v' else hm_get eqb k m'
  end.

Fixpoint hm_insert {K V} (eqb : K -> K -> bool) (k : K) (v : V) (m : list (K * V)) : list (K * V) :=
  match m with
  | [] => [(k, v)]
  | (k', v') :: m' => if eqb k k' then (k', v) :: m' else (k', v') :: hm_insert eqb k v m'
  end.

(** [AmqpParseError], /repo/src/errors.rs lines 6-26.  Payloads of [UuidParseError] and [Utf8Error] are dropped. *)
Inductive perr :=
| EInvalidSize
| EIncomplete (n : option Z)
| EInvalidFormatCode (c : Z)
| EInvalidChar (c : Z)
| EInvalidDescriptor (d : descriptor)
| EUnexpectedFrameType (t : Z)
| ERequiredFieldOmitted (name : string)
| EUnknownEnumOption (name : string)
| EUuidParseError
| EUtf8Error.

(** Outcome of a fallible function: [Result], a panic, or exhausted fuel of the model (never returned by the
    top-level decoders, see C41_terminates). *)
Inductive res (A : Type) :=
| Ok (a : A)
| Err (e : perr)
| Panic (p : panic)
| Oof.
Arguments Ok {A} a.
Arguments Err {A} e.
Arguments Panic {A} p.
Arguments Oof {A}.

(** The [?] operator. *)
Definition bind {A B} (x : res A) (f : A -> res B) : res B :=
  match x with
  | Ok a => f a
  | Err e => Err e
  | Panic p => Panic p
  | Oof => Oof
  end.

Notation "x <- y ;; z" := (bind y (fun x => z)) (at level 61, y at next level, right associativity).
Notation "' p <- y ;; z" := (bind y (fun p => z)) (at level 61, p pattern, y at next level, right associativity).

(** [.map(|(i, o)| (i, f(o)))] on a decoder's result. *)
Definition map_res {A B} (f : A -> B) (x : res (bytes * A)) : res (bytes * B) :=
  '(i, o) <- x ;; Ok (i, f o).

(** [for _ in 0..n { s = f(s)? }], by binary recursion on [n]. *)
Fixpoint loop_pos {S} (p : positive) (f : S -> res S) (s : S) : res S :=
  match p with
  | xH => f s
  | xO q => s1 <- loop_pos q f s ;; loop_pos q f s1
  | xI q => s1 <- f s ;; s2 <- loop_pos q f s1 ;; loop_pos q f s2
  end.

Definition loop_n {S} (n : Z) (f : S -> res S) (s : S) : res S :=
  match n with
  | Zpos p => loop_pos p f s
  | _ => Ok s
  end.
