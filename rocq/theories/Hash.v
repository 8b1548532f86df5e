(** Model of hashing: [Hash] for the types of /repo/src/types/*.rs.

    [Hash::hash] only talks to the hasher, so its effect is the list of calls it makes on it.  Hashing by the standard
    library is written out here; hashing by the crates [string], [ordered-float] and [chrono] is a parameter. *)

From Verif Require Import Types.

(** The methods of [std::hash::Hasher] that are called. *)
Inductive hcall :=
| HWrite (b : bytes)
| HU8 (v : Z)
| HU16 (v : Z)
| HU32 (v : Z)
| HU64 (v : Z)
| HUsize (v : Z)
| HI8 (v : Z)
| HI16 (v : Z)
| HI32 (v : Z)
| HI64 (v : Z)
| HIsize (v : Z).
Definition feed := list hcall.

(** [Hash] of other crates: [string::String<Bytes>], [OrderedFloat<f32>], [OrderedFloat<f64>] and [DateTime<Utc>], none
    of whose sources are in /repo. *)
Record hashers := MkHashers {
  h_bytestr : bytes -> feed;
  h_f32 : Z -> feed;
  h_f64 : Z -> feed;
  h_datetime : datetime -> feed
}.

(** Standard library: [Hash for str] (the bytes, then 0xff), [Hash for \[u8\]] (the length, then the bytes; [Bytes] and
    the array in [Uuid] are hashed this way), and the discriminant that [derive(Hash)] hashes first. *)
Definition text_hash (b : bytes) : feed := [HWrite b; HU8 0xff].
Definition slice_hash (b : bytes) : feed := [HUsize (zlen b); HWrite b].
Definition discriminant (n : Z) : feed := [HIsize n].

Section Hash.
  Context (H : hashers).

  (** [Hash for Str]: types/mod.rs lines 125-132. *)
  Definition str_hash (s : str) : feed :=
    match s with
    | SByteStr b => h_bytestr H b
    | SStatic b => text_hash b
    end.

  (** derived for [Symbol] (symbol.rs line 8) and [StaticSymbol] (symbol.rs lines 57-58): newtypes. *)
  Definition symbol_hash (s : symbol) : feed := str_hash s.
  Definition static_symbol_hash (s : bytes) : feed := text_hash s.

  (** derived for [Descriptor]: types/mod.rs line 13. *)
  Definition descriptor_hash (d : descriptor) : feed :=
    match d with
    | DUlong v => discriminant 0 ++ [HU64 v]
    | DSymbol s => discriminant 1 ++ symbol_hash s
    end.

  (** derived for [Variant] (variant.rs line 12; discriminants in declaration order), [List] (types/mod.rs line 56);
      [Hash for VariantMap] is [unimplemented!()] (variant.rs lines 138-142).  Calls made before a panic are
      dropped. *)
  Fixpoint variant_hash (v : variant) : res feed :=
    match v with
    | VNull => Ok (discriminant 0)
    | VBoolean b => Ok (discriminant 1 ++ [HU8 (if b then 1 else 0)])
    | VUbyte x => Ok (discriminant 2 ++ [HU8 x])
    | VUshort x => Ok (discriminant 3 ++ [HU16 x])
    | VUint x => Ok (discriminant 4 ++ [HU32 x])
    | VUlong x => Ok (discriminant 5 ++ [HU64 x])
    | VByte x => Ok (discriminant 6 ++ [HI8 x])
    | VShort x => Ok (discriminant 7 ++ [HI16 x])
    | VInt x => Ok (discriminant 8 ++ [HI32 x])
    | VLong x => Ok (discriminant 9 ++ [HI64 x])
    | VFloat x => Ok (discriminant 10 ++ h_f32 H x)
    | VDouble x => Ok (discriminant 11 ++ h_f64 H x)
    | VChar c => Ok (discriminant 12 ++ [HU32 c])
    | VTimestamp t => Ok (discriminant 13 ++ h_datetime H t)
    | VUuid u => Ok (discriminant 14 ++ slice_hash u)
    | VBinary b => Ok (discriminant 15 ++ slice_hash b)
    | VString s => Ok (discriminant 16 ++ str_hash s)
    | VSymbol s => Ok (discriminant 17 ++ symbol_hash s)
    | VStaticSymbol s => Ok (discriminant 18 ++ static_symbol_hash s)
    | VList l =>
      fs <- (fix each (l : list variant) : res feed :=
               match l with
               | [] => Ok []
               | x :: r => f <- variant_hash x ;; g <- each r ;; Ok (f ++ g)
               end) l ;;
      Ok (discriminant 19 ++ HUsize (zlen l) :: fs)
    | VMap _ => Panic PUnimplemented
    | VDescribed d w => f <- variant_hash w ;; Ok (discriminant 21 ++ descriptor_hash d ++ f)
    end.
End Hash.
