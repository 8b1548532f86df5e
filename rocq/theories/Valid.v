(** Specification: which values of the model are values of the Rust types.

    The model uses unbounded integers and raw byte lists, so each Rust type is a predicate.  These predicates say nothing
    about encoding. *)

From Verif Require Import Types Utf8Spec.

Section AllProp.
  Context {A : Type} (P : A -> Prop).
  Fixpoint all_prop (l : list A) : Prop :=
    match l with
    | [] => True
    | x :: r => P x /\ all_prop r
    end.
End AllProp.

(** A Rust string: UTF-8 text, however it is stored. *)
Definition text_ok (b : bytes) : Prop := is_utf8 b.
Definition str_ok (s : str) : Prop :=
  match s with
  | SByteStr b => is_utf8 b
  | SStatic b => is_utf8 b
  end.
Definition symbol_ok (s : symbol) : Prop := str_ok s.

Definition uuid_ok (u : bytes) : Prop := bytes_ok u /\ zlen u = 16.

(** [DateTime<Utc>]: representable by chrono. *)
Definition datetime_ok (t : datetime) : Prop :=
  chrono_min_secs <= dt_secs t <= chrono_max_secs /\ 0 <= dt_nanos t < 2000000000.

Definition descriptor_ok (d : descriptor) : Prop :=
  match d with
  | DUlong v => 0 <= v < 2 ^ 64
  | DSymbol s => symbol_ok s
  end.

(** The keys of a map are pairwise different (a [HashMap] has no equal keys). *)
Definition distinct_keys {K V} (eqb : K -> K -> bool) (m : list (K * V)) : Prop :=
  ForallOrdPairs (fun a b => eqb (fst b) (fst a) = false) m.

Fixpoint variant_ok (v : variant) : Prop :=
  match v with
  | VNull => True
  | VBoolean _ => True
  | VUbyte x => 0 <= x < 2 ^ 8
  | VUshort x => 0 <= x < 2 ^ 16
  | VUint x => 0 <= x < 2 ^ 32
  | VUlong x => 0 <= x < 2 ^ 64
  | VByte x => - 2 ^ 7 <= x < 2 ^ 7
  | VShort x => - 2 ^ 15 <= x < 2 ^ 15
  | VInt x => - 2 ^ 31 <= x < 2 ^ 31
  | VLong x => - 2 ^ 63 <= x < 2 ^ 63
  | VFloat bits => 0 <= bits < 2 ^ 32
  | VDouble bits => 0 <= bits < 2 ^ 64
  | VChar c => scalar c
  | VTimestamp t => datetime_ok t
  | VUuid u => uuid_ok u
  | VBinary b => bytes_ok b
  | VString s => str_ok s
  | VSymbol s => symbol_ok s
  | VStaticSymbol s => text_ok s
  | VList l => all_prop variant_ok l
  | VMap m =>
    all_prop (fun kv : variant * variant =>
                let (k, w) := kv in variant_ok k /\ variant_hashable k = true /\ variant_ok w) m
    /\ distinct_keys variant_eqb m
  | VDescribed d w => descriptor_ok d /\ variant_ok w
  end.
