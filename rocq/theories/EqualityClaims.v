(** The claims about equality and hashing of values: C47, C52 (further parts) and C58 of properties.jsonl.
    The vocabulary is in Valid and EqualitySpec. *)

From Coq Require Import String.
From Verif Require Import Types Hash Utf8Spec Valid EqualitySpec EqualityFacts.
Open Scope string_scope.
Open Scope list_scope.
Open Scope Z_scope.

(** ** C47 *)
Theorem C47_same_value : forall a, variant_ok a -> forall b, variant_ok b -> (variant_eqb a b = true <-> same_value a b).
Proof. exact variant_eqb_same. Qed.
Print Assumptions C47_same_value.
Theorem C47_floats : forall a b, (0 <= a < 2 ^ 32 -> 0 <= b < 2 ^ 32 -> (f32_eqb a b = true <-> binary32 a = binary32 b)) /\
  (0 <= a < 2 ^ 64 -> 0 <= b < 2 ^ 64 -> (f64_eqb a b = true <-> binary64 a = binary64 b)).
Proof. exact (fun a b => conj (f32_eqb_same a b) (f64_eqb_same a b)). Qed.
Print Assumptions C47_floats.
(** One; the smallest and the largest number; infinity; not a number; minus zero. *)
Example C47_floats_example : binary32 0x3f800000 = FNum (2 ^ 150) /\ binary32 1 = FNum 2 /\ binary32 0x7f7fffff = FNum ((2 ^ 24 - 1) * 2 ^ 254) /\
  binary32 0xff800000 = FInf true /\ binary32 0x7fc00000 = FNan /\ binary32 0x80000000 = binary32 0 /\
  binary64 0x3ff0000000000000 = FNum (2 ^ 1075) /\ f64_eqb 0x3ff0000000000000 0x3ff0000000000001 = false.
Proof. vm_compute. repeat split. Qed.
Theorem C47_lookup : forall m k v, variant_ok (VMap m) -> variant_ok k -> variant_hashable k = true ->
  (hm_get variant_eqb k m = Some v <-> exists k', In (k', v) m /\ same_value k k').
Proof. exact lookup_same. Qed.
Print Assumptions C47_lookup.
Theorem C47_insert : forall m k v q, variant_ok (VMap m) -> variant_hashable k = true -> variant_hashable q = true ->
  hm_get variant_eqb q (hm_insert variant_eqb k v m) = if variant_eqb q k then Some v else hm_get variant_eqb q m.
Proof. exact lookup_insert. Qed.
Print Assumptions C47_insert.
Theorem C47_insert_ok : forall m k v, variant_ok (VMap m) -> variant_ok k -> variant_hashable k = true -> variant_ok v ->
  variant_ok (VMap (hm_insert variant_eqb k v m)).
Proof. exact insert_ok. Qed.
Print Assumptions C47_insert_ok.
Example C47_lookup_example : let m := [(VFloat 0, VNull); (VUint 7, VChar 65)] in variant_ok (VMap m) /\
  hm_get variant_eqb (VFloat 0x80000000) m = Some VNull /\ hm_get variant_eqb (VUshort 7) m = None /\
  hm_get variant_eqb (VUint 7) (hm_insert variant_eqb (VUint 7) (VBoolean true) m) = Some (VBoolean true).
Proof. cbn [variant_ok all_prop]. unfold scalar. repeat split; try lia; repeat constructor. Qed.

(** ** C52 *)
Theorem C52_as_str : forall v t, variant_as_str v = Some t <-> exists s, (v = VString s \/ v = VSymbol s) /\ str_bytes s = t.
Proof. exact as_str_spec. Qed.
Print Assumptions C52_as_str.

(** ** C58 *)
Theorem C58_equal_hash_alike : forall H a, floats_hashed H -> texts_hashed H -> variant_ok a -> forall b, variant_ok b -> variant_eqb a b = true ->
  variant_hash H a = variant_hash H b.
Proof. exact variant_hash_same. Qed.
Print Assumptions C58_equal_hash_alike.
(** Values that differ are told apart by the calls, even by their beginnings. *)
Theorem C58_told_apart : forall H a, externals_told H -> texts_hashed H -> variant_ok a -> forall b, variant_ok b -> forall f g r q,
  variant_hash H a = Ok f -> variant_hash H b = Ok g -> f ++ r = g ++ q -> same_value a b /\ r = q.
Proof. exact variant_hash_tells. Qed.
Print Assumptions C58_told_apart.
Theorem C58_exact : forall H a b, floats_hashed H -> externals_told H -> texts_hashed H -> variant_ok a -> variant_ok b -> ~ meets_map a ->
  (variant_hash H a = variant_hash H b <-> variant_eqb a b = true).
Proof. exact variant_hash_iff. Qed.
Print Assumptions C58_exact.
Theorem C58_descriptor : forall H d e, texts_hashed H -> descriptor_eqb d e = true -> descriptor_hash H d = descriptor_hash H e.
Proof. exact descriptor_hash_same. Qed.
Print Assumptions C58_descriptor.
(** A [Str] is hashed as the [str] it can be borrowed as. *)
Theorem C58_text : forall H s, texts_hashed H -> str_hash H s = [HWrite (str_bytes s); HU8 0xff].
Proof. exact str_hash_text. Qed.
Print Assumptions C58_text.
(** The assumption on [String<Bytes>] is needed: without it equal texts are hashed differently. *)
Theorem C58_storage : forall H b, h_bytestr H b <> [HWrite b; HU8 0xff] ->
  str_eqb (SByteStr b) (SStatic b) = true /\ str_hash H (SByteStr b) <> str_hash H (SStatic b).
Proof. exact hash_storage. Qed.
Print Assumptions C58_storage.
Theorem C58_panics : forall H v, (meets_map v -> variant_hash H v = Panic PUnimplemented) /\ (~ meets_map v -> exists f, variant_hash H v = Ok f).
Proof. exact variant_hash_panics. Qed.
Print Assumptions C58_panics.
(** The check the decoder of maps makes on keys. *)
Theorem C58_hashable : forall v, variant_hashable v = false <-> meets_map v.
Proof. exact (fun v => iff_sym (meets_map_hashable v)). Qed.
Print Assumptions C58_hashable.
Example C58_example : floats_hashed some_hashers /\ texts_hashed some_hashers /\ externals_told some_hashers /\
  variant_hash some_hashers (VList [VFloat 0; VSymbol (SStatic (s2b "a"))]) =
    Ok [HIsize 19; HUsize 2; HIsize 10; HI64 0; HIsize 17; HWrite [97]; HU8 255] /\
  variant_hash some_hashers (VList [VFloat 0x80000000; VSymbol (SByteStr (s2b "a"))]) = variant_hash some_hashers (VList [VFloat 0; VSymbol (SStatic (s2b "a"))]) /\
  variant_hash some_hashers (VList [VNull; VDescribed (DUlong 1) (VMap [])]) = Panic PUnimplemented /\
  h_bytestr slice_hashers [97] <> [HWrite [97]; HU8 0xff].
Proof.
  split; [split; intros a b _ _ E; cbn; now rewrite E|]. split; [intros b; reflexivity|]. split.
  { split; [|split].
    - intros a b r q _ _ E. cbn [h_f32 some_hashers] in E. destruct (binary32 a) as [|[]|], (binary32 b) as [|[]|]; try discriminate E; injection E as; subst; now split.
    - intros a b r q _ _ E. cbn [h_f64 some_hashers] in E. destruct (binary64 a) as [|[]|], (binary64 b) as [|[]|]; try discriminate E; injection E as; subst; now split.
    - intros [a b] [c d] r q E. injection E as -> -> ->. now split. }
  split; [reflexivity|]. split; [reflexivity|].
  split; [reflexivity|discriminate].
Qed.
