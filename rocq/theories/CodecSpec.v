(** Specification: the vocabulary of the claims about single values (file CodecClaims). *)

From Coq Require Import String.
From Verif Require Import Definitions Utf8Spec Valid Wire TypeSpec CompositeSpec AllTypes.
Open Scope string_scope.
Open Scope list_scope.
Open Scope Z_scope.

(** The primitive types, each with the sense in which a value [w] received stands for the value [v] sent: texts may be
    stored differently, instants are cut to milliseconds, everything else is the same. *)
Inductive primitive : forall {T}, tspec T -> (T -> T -> Prop) -> Prop :=
| pr_bool : primitive bool_S eq
| pr_u8 : primitive u8_S eq
| pr_u16 : primitive u16_S eq
| pr_u32 : primitive u32_S eq
| pr_u64 : primitive u64_S eq
| pr_i8 : primitive i8_S eq
| pr_i16 : primitive i16_S eq
| pr_i32 : primitive i32_S eq
| pr_i64 : primitive i64_S eq
| pr_f32 : primitive f32_S eq
| pr_f64 : primitive f64_S eq
| pr_char : primitive char_S eq
| pr_timestamp : primitive datetime_S (fun v w => w = instant (millis v))
| pr_uuid : primitive uuid_S eq
| pr_binary : primitive bin_S eq
| pr_string : primitive bstr_S eq
| pr_str : primitive str_S (fun v w => str_eqb v w = true)
| pr_symbol : primitive symbol_S (fun v w => str_eqb v w = true).

(** Values of the generic type on which nothing is lost: no symbol from a [&'static str] (it comes back as an ordinary
    symbol), instants of whole milliseconds and outside leap seconds. *)
Fixpoint lossless (v : variant) : Prop :=
  match v with
  | VStaticSymbol _ => False
  | VTimestamp t => dt_nanos t mod 1000000 = 0 /\ dt_nanos t < 1000000000
  | VList l => all_prop lossless l
  | VMap m => all_prop (fun kv : variant * variant => let (k, w) := kv in lossless k /\ lossless w) m
  | VDescribed _ w => lossless w
  | _ => True
  end.

(** The nesting depth and the number of nodes of a generic value. *)
Fixpoint depth (v : variant) : Z :=
  match v with
  | VList l => 1 + fold_right Z.max 0 (map depth l)
  | VMap m => 1 + fold_right Z.max 0 (map (fun kv : variant * variant => let (k, w) := kv in Z.max (depth k) (depth w)) m)
  | VDescribed _ w => 1 + depth w
  | _ => 1
  end.
Fixpoint nodes (v : variant) : Z :=
  match v with
  | VList l => 1 + fold_right Z.add 0 (map nodes l)
  | VMap m => 1 + fold_right Z.add 0 (map (fun kv : variant * variant => let (k, w) := kv in nodes k + nodes w) m)
  | VDescribed _ w => 1 + nodes w
  | _ => 1
  end.

(** The value stored last for a key in a sequence of entries. *)
Fixpoint last_value {K V} (eqb : K -> K -> bool) (k : K) (entries : list (K * V)) : option V :=
  match entries with
  | [] => None
  | (k', v) :: r => match last_value eqb k r with Some w => Some w | None => if eqb k k' then Some v else None end
  end.
(** The value stored for a key in a map, whatever the order of its entries: the value of an entry with that key. *)
Definition maps_to {K V} (eqb : K -> K -> bool) (m : list (K * V)) (k : K) (v : V) : Prop :=
  exists k', In (k', v) m /\ eqb k k' = true.

(** ** Maps as they are read

    [reads d md bs v]: the decoder takes exactly [bs] and returns [v], whatever follows.
    [reads_pairs]: a sequence of keys and values is read one after the other.
    [map_header md n len hdr]: [hdr] announces a map of [n] keys and values in [len] bytes.  The size field is the length
    plus the width of the count; without overflow checks a size field too small for the count wraps around.
    [map_of KO ps m]: [m] has pairwise different keys, and to every key belongs the value given last in [ps]. *)
Definition reads {T} (d : dec T) (md : mode) (bs : bytes) (v : T) : Prop :=
  forall rest, decode d md (bs ++ rest) = Ok (rest, v).
Inductive reads_pairs {K V} (dk : dec K) (dv : dec V) (md : mode) : list (K * V) -> bytes -> Prop :=
| RP_nil : reads_pairs dk dv md [] []
| RP_cons k v ps bk bv bs : reads dk md bk k -> reads dv md bv v -> reads_pairs dk dv md ps bs ->
    reads_pairs dk dv md ((k, v) :: ps) (bk ++ bv ++ bs).
Definition size_field (md : mode) (bits width len : Z) : Prop :=
  0 <= len < 2 ^ bits /\ (md = Debug -> len + width < 2 ^ bits).
Definition map_header (md : mode) (n len : Z) (hdr : bytes) : Prop :=
  (0 <= n < 2 ^ 8 /\ size_field md 8 1 len /\ hdr = [0xc1; (len + 1) mod 2 ^ 8; n]) \/
  (0 <= n < 2 ^ 32 /\ size_field md 32 4 len /\ hdr = 0xd1 :: be4 ((len + 4) mod 2 ^ 32) ++ be4 n).
Definition map_of {K V} (KO : key K) (ps m : list (K * V)) : Prop :=
  distinct_keys (k_eqb KO) m /\
  forall k v, k_hashable KO k = true -> (maps_to (k_eqb KO) m k v <-> last_value (k_eqb KO) k ps = Some v).
(** Equality of keys is an equivalence on the keys that can be hashed. *)
Record key_equivalence {K} (KO : key K) : Prop := MkKeyEq {
  ke_refl : forall a, k_hashable KO a = true -> k_eqb KO a a = true;
  ke_sym : forall a b, k_hashable KO a = true -> k_hashable KO b = true -> k_eqb KO a b = true -> k_eqb KO b a = true;
  ke_trans : forall a b c, k_hashable KO a = true -> k_hashable KO b = true -> k_hashable KO c = true ->
    k_eqb KO a b = true -> k_eqb KO b c = true -> k_eqb KO a c = true
}.

(** ** Texts, sequences and timestamps as they are read *)
Definition var_header (code8 code32 : Z) (len : Z) (hdr : bytes) : Prop :=
  (0 <= len < 2 ^ 8 /\ hdr = [code8; len]) \/ (0 <= len < 2 ^ 32 /\ hdr = code32 :: be4 len).
(** Elements one after the other: each with its own format code, or all under one format code. *)
Inductive reads_all {T} (read : bytes -> res (bytes * T)) : list T -> bytes -> Prop :=
| RA_nil : reads_all read [] []
| RA_cons v l b bs : (forall rest, read (b ++ rest) = Ok (rest, v)) -> reads_all read l bs -> reads_all read (v :: l) (b ++ bs).
(** A list header announcing [n] elements in [len] bytes. *)
Definition list_header (md : mode) (n len : Z) (hdr : bytes) : Prop :=
  (n = 0 /\ len = 0 /\ hdr = [0x45]) \/
  (0 <= n < 2 ^ 8 /\ size_field md 8 1 len /\ hdr = [0xc0; (len + 1) mod 2 ^ 8; n]) \/
  (0 <= n < 2 ^ 32 /\ size_field md 32 4 len /\ hdr = 0xd0 :: be4 ((len + 4) mod 2 ^ 32) ++ be4 n).
(** An array header announcing [n] elements, with its one format code, in [len] bytes. *)
Definition array_header (md : mode) (n len : Z) (hdr : bytes) : Prop :=
  (0 <= n < 2 ^ 8 /\ size_field md 8 1 len /\ hdr = [0xe0; (len + 1) mod 2 ^ 8; n]) \/
  (0 <= n < 2 ^ 32 /\ size_field md 32 4 len /\ hdr = 0xf0 :: be4 ((len + 4) mod 2 ^ 32) ++ be4 n).
(** A generic value nested [n] levels deep in described values. *)
Fixpoint nested (n : nat) : variant := match n with O => VNull | S k => VDescribed (DUlong 1) (nested k) end.
Fixpoint nested_bytes (n : nat) : bytes := match n with O => [0x40] | S k => 0x00 :: 0x53 :: 0x01 :: nested_bytes k end.

(** ** Types whose decoder has nothing to index, subtract or convert *)
Inductive panic_free : forall {T}, tspec T -> Prop :=
| pf_bool : panic_free bool_S
| pf_u8 : panic_free u8_S
| pf_u16 : panic_free u16_S
| pf_u32 : panic_free u32_S
| pf_u64 : panic_free u64_S
| pf_i8 : panic_free i8_S
| pf_i16 : panic_free i16_S
| pf_i32 : panic_free i32_S
| pf_i64 : panic_free i64_S
| pf_f32 : panic_free f32_S
| pf_f64 : panic_free f64_S
| pf_char : panic_free char_S
| pf_uuid : panic_free uuid_S
| pf_binary : panic_free bin_S
| pf_string : panic_free bstr_S
| pf_str : panic_free str_S
| pf_symbol : panic_free symbol_S
| pf_role : panic_free role_S
| pf_sender_settle_mode : panic_free sender_settle_mode_S
| pf_receiver_settle_mode : panic_free receiver_settle_mode_S
| pf_sasl_code : panic_free sasl_code_S
| pf_terminus_durability : panic_free terminus_durability_S
| pf_terminus_expiry_policy : panic_free terminus_expiry_policy_S
| pf_amqp_error : panic_free amqp_error_S
| pf_connection_error : panic_free connection_error_S
| pf_session_error : panic_free session_error_S
| pf_link_error : panic_free link_error_S
| pf_error_condition : panic_free error_condition_S
| pf_distribution_mode : panic_free distribution_mode_S
| pf_message_id : panic_free message_id_S
| pf_option T (S : tspec T) : panic_free S -> panic_free (option_S S).

(** The composite types all of whose fields are such. *)
Definition flat_composites : list composite :=
  [received_K; accepted_K; released_K; sasl_init_K; sasl_challenge_K; sasl_response_K; sasl_outcome_K; header_K].

(** What may go wrong while decoding any type: an out-of-range index, an instant chrono cannot represent, a key that cannot
    be hashed; an arithmetic overflow only if the build checks for it. *)
Definition possible_panic (md : mode) (p : panic) : Prop :=
  match p with
  | PArith => md = Debug
  | PCapacity => False
  | PSlice | PChrono | PUnimplemented => True
  end.
(** A compound header whose size field does not even cover the count that follows it. *)
Definition tiny_header (code8 code32 : Z) (hdr : bytes) : Prop :=
  (exists n, hdr = [code8; 0; n]) \/
  (exists size n, 0 <= size < 4 /\ 0 <= n < 2 ^ 32 /\ hdr = code32 :: be4 size ++ be4 n).

(** ** Enumerations: the encodings of the base type, the table of wire values, and the name used in errors *)
Definition texts {T} (table : list (T * string)) : list (T * bytes) := map (fun e => (fst e, s2b (snd e))) table.
Inductive enumeration : forall {T B : Type}, tspec T -> (B -> bytes -> Prop) -> list (T * B) -> string -> Prop :=
| en_role : enumeration role_S wire_boolean role_table "Role"
| en_sender_settle_mode : enumeration sender_settle_mode_S wire_ubyte sender_settle_mode_table "SenderSettleMode"
| en_receiver_settle_mode : enumeration receiver_settle_mode_S wire_ubyte receiver_settle_mode_table "ReceiverSettleMode"
| en_sasl_code : enumeration sasl_code_S wire_ubyte sasl_code_table "SaslCode"
| en_terminus_durability : enumeration terminus_durability_S wire_uint terminus_durability_table "TerminusDurability"
| en_terminus_expiry_policy :
    enumeration terminus_expiry_policy_S wire_symbol (texts terminus_expiry_policy_table) "TerminusExpiryPolicy"
| en_amqp_error : enumeration amqp_error_S wire_symbol (texts amqp_error_table) "AmqpError"
| en_connection_error : enumeration connection_error_S wire_symbol (texts connection_error_table) "ConnectionError"
| en_session_error : enumeration session_error_S wire_symbol (texts session_error_table) "SessionError"
| en_link_error : enumeration link_error_S wire_symbol (texts link_error_table) "LinkError".

(** ** Order of texts: byte by byte *)
Inductive text_before : bytes -> bytes -> Prop :=
| TB_prefix x b : text_before [] (x :: b)
| TB_less x y a b : x < y -> text_before (x :: a) (y :: b)
| TB_tail x a b : text_before a b -> text_before (x :: a) (x :: b).

(** ** The exact language of a decoder

    [language S L]: [L v bs] holds of exactly the byte strings that are read as [v].  For most types these are the encodings
    of the standard.  A boolean in its long form is true for every byte but 0; instants are those chrono can represent, the
    last second before 1970 is mirrored, and whole seconds before that are read as a leap second of the second before. *)
Definition read_instant (ms : Z) : datetime :=
  if (-1000 <? ms) && (ms <? 0) then instant (- ms)
  else if (ms <? 0) && (ms mod 1000 =? 0) then MkDT (ms / 1000 - 1) 1000000000
  else instant ms.
Definition read_boolean (b : bool) (bs : bytes) : Prop :=
  wire_boolean b bs \/ (b = true /\ exists x, 2 <= x < 256 /\ bs = [0x56; x]).
Inductive language : forall {T}, tspec T -> (T -> bytes -> Prop) -> Prop :=
| la_bool : language bool_S read_boolean
| la_u8 : language u8_S (s_wire u8_S)
| la_u16 : language u16_S (s_wire u16_S)
| la_u32 : language u32_S (s_wire u32_S)
| la_u64 : language u64_S (s_wire u64_S)
| la_i8 : language i8_S (s_wire i8_S)
| la_i16 : language i16_S (s_wire i16_S)
| la_i32 : language i32_S (s_wire i32_S)
| la_i64 : language i64_S (s_wire i64_S)
| la_f32 : language f32_S (s_wire f32_S)
| la_f64 : language f64_S (s_wire f64_S)
| la_char : language char_S (s_wire char_S)
| la_timestamp : language datetime_S (fun t bs => exists ms, - 2 ^ 63 <= ms < 2 ^ 63 /\ bs = 0x83 :: be8 ms /\
    t = read_instant ms /\ chrono_min_secs <= dt_secs t <= chrono_max_secs)
| la_uuid : language uuid_S (s_wire uuid_S)
| la_binary : language bin_S (s_wire bin_S)
| la_string : language bstr_S (s_wire bstr_S)
| la_str : language str_S (s_wire str_S)
| la_symbol : language symbol_S (s_wire symbol_S)
| la_role : language role_S (fun x bs => exists b, In (x, b) role_table /\ read_boolean b bs)
| la_sender_settle_mode : language sender_settle_mode_S (s_wire sender_settle_mode_S)
| la_receiver_settle_mode : language receiver_settle_mode_S (s_wire receiver_settle_mode_S)
| la_sasl_code : language sasl_code_S (s_wire sasl_code_S)
| la_terminus_durability : language terminus_durability_S (s_wire terminus_durability_S)
| la_terminus_expiry_policy : language terminus_expiry_policy_S (s_wire terminus_expiry_policy_S)
| la_amqp_error : language amqp_error_S (s_wire amqp_error_S)
| la_connection_error : language connection_error_S (s_wire connection_error_S)
| la_session_error : language session_error_S (s_wire session_error_S)
| la_link_error : language link_error_S (s_wire link_error_S)
| la_error_condition : language error_condition_S (s_wire error_condition_S)
| la_distribution_mode : language distribution_mode_S (s_wire distribution_mode_S)
| la_message_id : language message_id_S (s_wire message_id_S)
| la_option T (S : tspec T) L : language S L -> ~ In 0x40 (s_codes S) ->
    language (option_S S) (fun o bs => match o with Some x => L x bs | None => bs = [0x40] end).

(** ** Composites and unions as they are read

    [null_mandatory F encs]: [encs] are encodings of the first fields up to a mandatory field, for which there is a null. *)
Fixpoint null_mandatory {R} (F : fields R) (encs : list bytes) : Prop :=
  match F with
  | FNil => False
  | FReq _ t r =>
      match encs with
      | [] => False
      | e :: rest => e = [0x40] \/ ((exists x, s_wire t x e /\ s_decodable t x) /\ null_mandatory r rest)
      end
  | FOpt _ t r | FDef _ t _ r =>
      match encs with
      | [] => False
      | e :: rest => (e = [0x40] \/ exists x, s_wire t x e /\ s_decodable t x) /\ null_mandatory r rest
      end
  end.
(** The header of a list written by an encoder: the short form if the content and the count fit. *)
Definition emitted_list (n : Z) (content : bytes) : bytes :=
  if zlen content + 1 <=? 255 then 0xc0 :: zlen content + 1 :: n :: content
  else 0xd0 :: be4 (zlen content + 4) ++ be4 n ++ content.
(** A descriptor names a described type. *)
Definition names {T} (D : dspec T) (d : descriptor) : Prop :=
  match d with
  | DUlong c => c = d_code D
  | DSymbol s => str_bytes s = s2b (d_name D)
  end.
Inductive union_type : forall {T}, tspec T -> list (alternative T) -> Prop :=
| un_delivery_state : union_type delivery_state_S delivery_state_alts
| un_outcome : union_type outcome_S outcome_alts
| un_sasl_frame_body : union_type sasl_frame_body_S sasl_frame_body_alts
| un_section : union_type section_S section_alts.
