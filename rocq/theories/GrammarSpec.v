(** Specification: exactly which byte strings the decoders of compound values read, and as what (file GrammarClaims).

    A grammar [G md v bs] says that the decoder, built with or without overflow checks ([md]), reads exactly [bs] as [v].
    The grammars describe what the crate does, not what the standard allows: where the two differ a comment says so. *)

From Coq Require Import String.
From Verif Require Import Definitions Utf8Spec Valid Wire TypeSpec CompositeSpec AllTypes CodecSpec.
Open Scope string_scope.
Open Scope list_scope.
Open Scope Z_scope.

(** Values one after the other.  (For keys and values in turn there is [wire_pairs].) *)
Inductive in_sequence {T} (G : T -> bytes -> Prop) : list T -> bytes -> Prop :=
| IS_nil : in_sequence G [] []
| IS_cons x l b bs : G x b -> in_sequence G l bs -> in_sequence G (x :: l) (b ++ bs).

(** The entries left of a sequence of entries with repeated keys: the first entry of a key fixes the key and its place, the
    last one the value. *)
Fixpoint entries_of {K V} (eqb : K -> K -> bool) (ps : list (K * V)) : list (K * V) :=
  match ps with
  | [] => []
  | (k, v) :: r =>
      (k, match last_value eqb k r with Some w => w | None => v end)
      :: filter (fun kv => negb (eqb (fst kv) k)) (entries_of eqb r)
  end.

(** A list: the size field is read, and not used: the elements may take more or fewer bytes than announced. *)
Definition read_list {T} (md : mode) (G : T -> bytes -> Prop) (l : list T) (bs : bytes) : Prop :=
  exists len hdr content, list_header md (zlen l) len hdr /\ in_sequence G l content /\ bs = hdr ++ content.
(** An array: the same, with one format code for all elements. *)
Definition read_array {T} (md : mode) (G : T -> bytes -> Prop) (l : list T) (bs : bytes) : Prop :=
  exists len hdr code content, array_header md (zlen l) len hdr /\ in_sequence (fun x b => G x (code :: b)) l content /\
    bs = hdr ++ code :: content.
(** A map: an odd key at the end, and whatever follows inside the size, is skipped ([junk]); every key can be hashed. *)
Definition read_entries {K V} (md : mode) (GK : K -> bytes -> Prop) (GV : V -> bytes -> Prop) (ps : list (K * V)) (bs : bytes) : Prop :=
  exists n hdr content junk, map_header md n (zlen (content ++ junk)) hdr /\ zlen ps = n / 2 /\ wire_pairs GK GV ps content /\
    bs = hdr ++ content ++ junk.
Definition read_map {K V} (KO : key K) (md : mode) (GK : K -> bytes -> Prop) (GV : V -> bytes -> Prop) (m : list (K * V)) (bs : bytes) : Prop :=
  exists ps, read_entries md GK GV ps bs /\ Forall (fun kv => k_hashable KO (fst kv) = true) ps /\ m = entries_of (k_eqb KO) ps.

Definition read_timestamp (t : datetime) (bs : bytes) : Prop :=
  exists ms, - 2 ^ 63 <= ms < 2 ^ 63 /\ bs = 0x83 :: be8 ms /\ t = read_instant ms /\ chrono_min_secs <= dt_secs t <= chrono_max_secs.

(** A value of any type.  The one-byte form of the number 0 is refused as a descriptor; there are no arrays and decimals. *)
Inductive read_value (md : mode) : variant -> bytes -> Prop :=
| RV_null : read_value md VNull [0x40]
| RV_boolean b bs : read_boolean b bs -> read_value md (VBoolean b) bs
| RV_ubyte v : 0 <= v < 2 ^ 8 -> read_value md (VUbyte v) [0x50; v]
| RV_ushort v : 0 <= v < 2 ^ 16 -> read_value md (VUshort v) (0x60 :: be2 v)
| RV_uint v bs : wire_uint v bs -> read_value md (VUint v) bs
| RV_ulong v bs : wire_ulong v bs -> read_value md (VUlong v) bs
| RV_byte v : - 2 ^ 7 <= v < 2 ^ 7 -> read_value md (VByte v) [0x51; v mod 256]
| RV_short v : - 2 ^ 15 <= v < 2 ^ 15 -> read_value md (VShort v) (0x61 :: be2 v)
| RV_int v bs : wire_int v bs -> read_value md (VInt v) bs
| RV_long v bs : wire_long v bs -> read_value md (VLong v) bs
| RV_float v : 0 <= v < 2 ^ 32 -> read_value md (VFloat v) (0x72 :: be4 v)
| RV_double v : 0 <= v < 2 ^ 64 -> read_value md (VDouble v) (0x82 :: be8 v)
| RV_char c : scalar c -> read_value md (VChar c) (0x73 :: be4 c)
| RV_timestamp t bs : read_timestamp t bs -> read_value md (VTimestamp t) bs
| RV_uuid u : uuid_ok u -> read_value md (VUuid u) (0x98 :: u)
| RV_binary b bs : wire_binary b bs -> read_value md (VBinary b) bs
| RV_string b bs : wire_string b bs -> read_value md (VString (SByteStr b)) bs
| RV_symbol b bs : wire_symbol b bs -> read_value md (VSymbol (SByteStr b)) bs
| RV_list l len hdr content : list_header md (zlen l) len hdr -> in_sequence (read_value md) l content ->
    read_value md (VList l) (hdr ++ content)
| RV_map ps n hdr content junk : map_header md n (zlen (content ++ junk)) hdr -> zlen ps = n / 2 ->
    wire_pairs (read_value md) (read_value md) ps content -> Forall (fun kv => variant_hashable (fst kv) = true) ps ->
    read_value md (VMap (entries_of variant_eqb ps)) (hdr ++ content ++ junk)
| RV_described d v label bs : wire_descriptor d label -> label <> [0x44] -> read_value md v bs ->
    read_value md (VDescribed d v) (0x00 :: label ++ bs).

(** ** The grammar of every type, from the grammars of its parts

    [field_grammar F G]: [G md n a bs] says that the first [n] fields of [a] are read from [bs], the others are left out. *)
Inductive grammar : forall {T}, tspec T -> (mode -> T -> bytes -> Prop) -> Prop :=
| gr_simple T (S : tspec T) L : language S L -> grammar S (fun _ => L)
| gr_variant : grammar variant_S read_value
| gr_list : grammar list_S (fun md => read_list md (read_value md))
| gr_vec_string_map : grammar vecmap_S (fun md => read_entries md (s_wire str_S) (read_value md))
| gr_option T (S : tspec T) G : grammar S G -> ~ In 0x40 (s_codes S) ->
    grammar (option_S S) (fun md o bs => match o with Some x => G md x bs | None => bs = [0x40] end)
| gr_map K V (KO : key K) (SK : tspec K) (SV : tspec V) GK GV : key_equivalence KO -> grammar SK GK -> grammar SV GV ->
    grammar (map_S KO SK SV) (fun md => read_map KO md (GK md) (GV md))
| gr_vec T A width (S : tspec T) G : element A width S -> grammar S G ->
    grammar (vec_S A width S) (fun md => read_array md (G md))
| gr_multiple T A width (S : tspec T) G : element A width S -> ~ In 0xe0 (s_codes S) -> ~ In 0xf0 (s_codes S) -> grammar S G ->
    grammar (multiple_S A width S) (fun md l bs => read_array md (G md) l bs \/ exists x, l = [x] /\ G md x bs)
| gr_composite K G : In K all_composites -> body_grammar (composite_D K) G ->
    grammar (composite_S K) (fun md v bs => exists label body, wire_label (k_code K) (k_name K) label /\ G md v body /\
      bs = 0x00 :: label ++ body)
| gr_union T (S : tspec T) alts G : union_type S alts -> union_grammar alts G -> grammar S G
with field_grammar : forall {R}, fields R -> (mode -> Z -> R -> bytes -> Prop) -> Prop :=
| fg_nil : field_grammar FNil (fun _ _ _ bs => bs = [])
| fg_mandatory T R name (S : tspec T) (r : fields R) GS G : grammar S GS -> field_grammar r G ->
    field_grammar (FReq name S r) (fun md n a bs =>
      0 < n /\ exists e b, GS md (fst a) e /\ G md (n - 1) (snd a) b /\ bs = e ++ b)
| fg_optional T R name (S : tspec T) (r : fields R) GS G : grammar S GS -> field_grammar r G ->
    field_grammar (FOpt name S r) (fun md n a bs =>
      (0 < n /\ exists e b, match fst a with Some x => GS md x e | None => e = [0x40] end /\ G md (n - 1) (snd a) b /\ bs = e ++ b) \/
      (n = 0 /\ fst a = None /\ G md 0 (snd a) bs))
| fg_default T R name (S : tspec T) dflt (r : fields R) GS G : grammar S GS -> field_grammar r G ->
    field_grammar (FDef name S dflt r) (fun md n a bs =>
      (0 < n /\ exists e b, (GS md (fst a) e \/ (fst a = dflt /\ e = [0x40])) /\ G md (n - 1) (snd a) b /\ bs = e ++ b) \/
      (n = 0 /\ fst a = dflt /\ G md 0 (snd a) bs))
(** What follows a descriptor.  Of a composite the size is used: what is left of it after the known fields is skipped. *)
with body_grammar : forall {T}, dspec T -> (mode -> T -> bytes -> Prop) -> Prop :=
| bg_composite K G : In K all_composites -> field_grammar (k_fields K) G ->
    body_grammar (composite_D K) (fun md v bs => exists n hdr content junk,
      list_header md n (zlen (content ++ junk)) hdr /\ G md n (k_to K v) content /\ bs = hdr ++ content ++ junk)
| bg_section T code name (S : tspec T) size enc inner G : (forall md inp, inner md inp = decode (s_dec S) md inp) -> grammar S G ->
    body_grammar (section_D code name S size enc inner) G
with union_grammar : forall {T}, list (alternative T) -> (mode -> T -> bytes -> Prop) -> Prop :=
| ug_nil T : union_grammar (@nil (alternative T)) (fun _ _ _ => False)
| ug_cons T (a : alternative T) r G GR : body_grammar (a_D a) G -> union_grammar r GR ->
    union_grammar (a :: r) (fun md v bs =>
      (exists x label body, v = a_inj a x /\ wire_label (d_code (a_D a)) (d_name (a_D a)) label /\ G md x body /\
        bs = 0x00 :: label ++ body) \/ GR md v bs).
