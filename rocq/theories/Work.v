(** The encoder of generic values once more, counting: the same code as in [Encode], each function with the number of calls of
    [encoded_size] on a [Variant] made while it runs (its own call included).  [encoded_size] of the other types that a [Variant] may hold
    makes no such calls. *)

From Verif Require Import Encode.
Open Scope list_scope.
Open Scope Z_scope.

Section Counted.
  Context {A : Type}.
  (** [fold(0, |r, i| r + i.encoded_size())] as in src/codec/encode.rs lines 453-458 and 596-598. *)
  Section Sum.
    Context (f : A -> Z * Z).
    Fixpoint sum_counted (l : list A) : Z * Z :=
      match l with
      | [] => (0, 0)
      | x :: r => let (n, s) := f x in let (k, t) := sum_counted r in (n + k, s + t)
      end.
  End Sum.
  (** [for i in self { i.encode(buf); }] as in lines 481-484 and 623-625. *)
  Section Each.
    Context (f : A -> Z * list wop).
    Fixpoint each_counted (l : list A) : Z * list wop :=
      match l with
      | [] => (0, [])
      | x :: r => let (n, o) := f x in let (k, p) := each_counted r in (n + k, o ++ p)
      end.
  End Each.
End Counted.

(** [Variant::encoded_size]: src/codec/encode.rs lines 629-654, with [List] (lines 600-609), [HashMap] (lines 459-466). *)
Fixpoint size_counted (v : variant) : Z * Z :=
  match v with
  | VList l => let (n, content_size) := sum_counted size_counted l in (1 + n, (if 255 <? content_size + 1 then 9 else 3) + content_size)
  | VMap m =>
    let (n, size) := sum_counted (fun kv : variant * variant =>
      let (k, w) := kv in let (a, s) := size_counted k in let (b, t) := size_counted w in (a + b, s + t)) m in
    (1 + n, (if 255 <? size + 1 then 9 else 3) + size)
  | VDescribed d w => let (n, s) := size_counted w in (1 + n, descriptor_size d + s)
  | _ => (1, variant_size v)
  end.

(** [Variant::encode]: lines 656-686, with [List] (lines 611-626), [HashMap] (lines 467-485). *)
Fixpoint enc_counted (v : variant) : Z * list wop :=
  match v with
  | VList l =>
    let (n, size) := sum_counted size_counted l in
    let (k, ops) := each_counted enc_counted l in
    (n + k, (if 255 <? size + 1
             then [put_u8 FC_ARRAY32; put_u32_be (size + 4); put_u32_be (zlen l)]
             else [put_u8 FC_ARRAY8; put_u8 (size + 1); put_u8 (zlen l)]) ++ ops)
  | VMap m =>
    let count := zlen m * 2 in
    let (n, size) := sum_counted (fun kv : variant * variant =>
      let (k, w) := kv in let (a, s) := size_counted k in let (b, t) := size_counted w in (a + b, s + t)) m in
    let (k, ops) := each_counted (fun kv : variant * variant =>
      let (k, w) := kv in let (a, o) := enc_counted k in let (b, p) := enc_counted w in (a + b, o ++ p)) m in
    (n + k, (if 255 <? size + 1
             then [put_u8 FC_MAP32; put_u32_be (size + 4); put_u32_be count]
             else [put_u8 FC_MAP8; put_u8 (size + 1); put_u8 count]) ++ ops)
  | VDescribed d w => let (n, o) := enc_counted w in (n, descriptor_enc d ++ o)
  | _ => (0, variant_enc v)
  end.
