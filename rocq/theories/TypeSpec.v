(** Specification: the AMQP types that occur as values and fields, with the encodings the standard allows for each.

    A [tspec T] puts the crate's codec for [T] next to an independent description of it.  Nothing in the descriptions uses
    the codec. *)

From Coq Require Import String.
From Verif Require Import Protocol Utf8Spec Valid Wire.
Open Scope string_scope.
Open Scope list_scope.
Open Scope Z_scope.

Record tspec (T : Type) : Type := MkSpec {
  s_codec : codec T;             (* the code described *)
  s_valid : T -> Prop;           (* which model values are values of the Rust type *)
  s_codes : list Z;              (* the format codes an encoding may start with *)
  s_wire : T -> bytes -> Prop;   (* the encodings the standard allows *)
  s_canon : T -> T;              (* what the wire format keeps of a value *)
  s_encodable : T -> Prop;       (* values the encoder handles *)
  s_decodable : T -> Prop        (* values the decoder handles *)
}.
Arguments MkSpec {T}. Arguments s_codec {T}. Arguments s_valid {T}. Arguments s_codes {T}. Arguments s_wire {T}.
Arguments s_canon {T}. Arguments s_encodable {T}. Arguments s_decodable {T}.

Definition s_size {T} (S : tspec T) (v : T) : Z := e_size (c_E (s_codec S)) v.
Definition s_bytes {T} (S : tspec T) (v : T) : bytes := wbytes (e_enc (c_E (s_codec S)) v).
Definition s_dec {T} (S : tspec T) : dec T := c_D (s_codec S).

Definition always {T : Type} (_ : T) : Prop := True.
Definition same {T : Type} (v : T) : T := v.

(** ** Primitive types *)
Definition between (a b : Z) (v : Z) : Prop := a <= v < b.
Definition bool_S : tspec bool := MkSpec bool_C always [0x41; 0x42; 0x56] wire_boolean same always always.
Definition u8_S : tspec Z := MkSpec u8_C (between 0 (2 ^ 8)) [0x50]
  (fun v bs => 0 <= v < 2 ^ 8 /\ bs = [0x50; v]) same always always.
Definition u16_S : tspec Z := MkSpec u16_C (between 0 (2 ^ 16)) [0x60]
  (fun v bs => 0 <= v < 2 ^ 16 /\ bs = 0x60 :: be2 v) same always always.
Definition u32_S : tspec Z := MkSpec u32_C (between 0 (2 ^ 32)) [0x43; 0x52; 0x70] wire_uint same always always.
Definition u64_S : tspec Z := MkSpec u64_C (between 0 (2 ^ 64)) [0x44; 0x53; 0x80] wire_ulong same always always.
Definition i8_S : tspec Z := MkSpec i8_C (between (- 2 ^ 7) (2 ^ 7)) [0x51]
  (fun v bs => - 2 ^ 7 <= v < 2 ^ 7 /\ bs = [0x51; v mod 256]) same always always.
Definition i16_S : tspec Z := MkSpec i16_C (between (- 2 ^ 15) (2 ^ 15)) [0x61]
  (fun v bs => - 2 ^ 15 <= v < 2 ^ 15 /\ bs = 0x61 :: be2 v) same always always.
Definition i32_S : tspec Z := MkSpec i32_C (between (- 2 ^ 31) (2 ^ 31)) [0x54; 0x71] wire_int same always always.
Definition i64_S : tspec Z := MkSpec i64_C (between (- 2 ^ 63) (2 ^ 63)) [0x55; 0x81] wire_long same always always.
Definition f32_S : tspec Z := MkSpec f32_C (between 0 (2 ^ 32)) [0x72]
  (fun v bs => 0 <= v < 2 ^ 32 /\ bs = 0x72 :: be4 v) same always always.
Definition f64_S : tspec Z := MkSpec f64_C (between 0 (2 ^ 64)) [0x82]
  (fun v bs => 0 <= v < 2 ^ 64 /\ bs = 0x82 :: be8 v) same always always.
Definition char_S : tspec Z := MkSpec char_C scalar [0x73]
  (fun v bs => scalar v /\ bs = 0x73 :: be4 v) same always always.
Definition datetime_S : tspec datetime := MkSpec datetime_C datetime_ok [0x83]
  (fun t bs => exists ms, - 2 ^ 63 <= ms < 2 ^ 63 /\ t = instant ms /\ bs = 0x83 :: be8 ms)
  (fun t => instant (millis t)) always timestamp_supported.
Definition uuid_S : tspec bytes := MkSpec uuid_C uuid_ok [0x98]
  (fun u bs => uuid_ok u /\ bs = 0x98 :: u) same always always.
Definition bin_S : tspec bytes := MkSpec bin_C bytes_ok [0xa0; 0xb0] wire_binary same always always.
Definition bstr_S : tspec bytes := MkSpec bstr_C text_ok [0xa1; 0xb1] wire_string same always always.
Definition str_S : tspec str := MkSpec str_C str_ok [0xa1; 0xb1]
  (fun s bs => exists b, s = SByteStr b /\ wire_string b bs) canon_str always always.
Definition symbol_S : tspec symbol := MkSpec symbol_C symbol_ok [0xa3; 0xb3]
  (fun s bs => exists b, s = SByteStr b /\ wire_symbol b bs) canon_str always always.

(** ** Generic values *)
Definition variant_S : tspec variant := MkSpec variant_C variant_ok
  [0x00; 0x40; 0x41; 0x42; 0x43; 0x44; 0x45; 0x50; 0x51; 0x52; 0x53; 0x54; 0x55; 0x56; 0x60; 0x61; 0x70; 0x71; 0x72; 0x73;
   0x80; 0x81; 0x82; 0x83; 0x98; 0xa0; 0xa1; 0xa3; 0xb0; 0xb1; 0xb3; 0xc0; 0xc1; 0xd0; 0xd1]
  wire canon list_free decodable.

(** ** Null *)
Definition opt_prop {T} (P : T -> Prop) (o : option T) : Prop := match o with Some x => P x | None => True end.
Definition option_S {T} (S : tspec T) : tspec (option T) := MkSpec (option_C (s_codec S)) (opt_prop (s_valid S))
  (0x40 :: s_codes S)
  (fun o bs => match o with Some x => s_wire S x bs | None => bs = [0x40] end)
  (option_map (s_canon S)) (opt_prop (s_encodable S)) (opt_prop (s_decodable S)).

(** ** Maps: keys and values alternate; the count is the number of both *)
Inductive wire_pairs {K V} (wk : K -> bytes -> Prop) (wv : V -> bytes -> Prop) : list (K * V) -> bytes -> Prop :=
| WP_nil : wire_pairs wk wv [] []
| WP_cons k v m bk bv bs : wk k bk -> wv v bv -> wire_pairs wk wv m bs -> wire_pairs wk wv ((k, v) :: m) (bk ++ bv ++ bs).
Inductive wire_map {K V} (wk : K -> bytes -> Prop) (wv : V -> bytes -> Prop) : list (K * V) -> bytes -> Prop :=
| WM_8 m bs : wire_pairs wk wv m bs -> zlen bs + 1 < 2 ^ 8 ->
    wire_map wk wv m (0xc1 :: zlen bs + 1 :: 2 * zlen m :: bs)
| WM_32 m bs : wire_pairs wk wv m bs -> zlen bs + 4 < 2 ^ 32 ->
    wire_map wk wv m (0xd1 :: be4 (zlen bs + 4) ++ be4 (2 * zlen m) ++ bs).

Definition both {K V} (PK : K -> Prop) (PV : V -> Prop) (kv : K * V) : Prop := PK (fst kv) /\ PV (snd kv).
Definition on_both {K V} (f : K -> K) (g : V -> V) (kv : K * V) : K * V := (f (fst kv), g (snd kv)).
(** A [HashMap]: keys pairwise different, and every key can be hashed. *)
Definition hash_map {K V} (KO : key K) (PK : K -> Prop) (PV : V -> Prop) (m : list (K * V)) : Prop :=
  Forall (fun kv => PK (fst kv) /\ k_hashable KO (fst kv) = true /\ PV (snd kv)) m /\ distinct_keys (k_eqb KO) m.
Definition map_S {K V} (KO : key K) (SK : tspec K) (SV : tspec V) : tspec (list (K * V)) :=
  MkSpec (map_C KO (s_codec SK) (s_codec SV))
    (hash_map KO (s_valid SK) (s_valid SV)) [0xc1; 0xd1] (wire_map (s_wire SK) (s_wire SV))
    (map (on_both (s_canon SK) (s_canon SV))) (Forall (both (s_encodable SK) (s_encodable SV)))
    (hash_map KO (s_decodable SK) (s_decodable SV)).
Definition vmap_S := map_S variant_key variant_S variant_S.
Definition string_variant_map_S := map_S str_key str_S variant_S.
Definition fields_S := map_S str_key symbol_S variant_S.
Definition filter_set_S := map_S str_key symbol_S (option_S bstr_S).
(** [VecVariantMap]: a map written from, and read into, a vector of entries. *)
Definition vecmap_S : tspec (list (str * variant)) :=
  MkSpec vecmap_C (Forall (both str_ok variant_ok)) [0xc1; 0xd1] (wire_map (s_wire str_S) wire)
    (map (on_both canon_str canon)) (Forall (both always list_free)) (Forall (both always decodable)).

(** ** Arrays: one format code for all elements, then the elements without it *)
Inductive wire_array {T} (w : T -> bytes -> Prop) : list T -> bytes -> Prop :=
| WA_8 c l bodies : byte_ok c -> Forall2 (fun x b => w x (c :: b)) l bodies -> zlen (concat bodies) + 2 < 2 ^ 8 -> zlen l < 2 ^ 8 ->
    wire_array w l (0xe0 :: zlen (concat bodies) + 2 :: zlen l :: c :: concat bodies)
| WA_32 c l bodies : byte_ok c -> Forall2 (fun x b => w x (c :: b)) l bodies -> zlen (concat bodies) + 5 < 2 ^ 32 -> zlen l < 2 ^ 32 ->
    wire_array w l (0xf0 :: be4 (zlen (concat bodies) + 5) ++ be4 (zlen l) ++ c :: concat bodies).

Fixpoint total_width {T} (width : T -> Z) (l : list T) : Z :=
  match l with [] => 0 | x :: r => width x + total_width width r end.
(** [Vec<T>].  [width] is the number of bytes of an element inside an array.  Vectors whose elements take exactly 254 bytes
    are excluded: their size does not fit the one-byte header the encoder chooses for them.  *)
Definition vec_S {T} (A : aenc T) (width : T -> Z) (S : tspec T) : tspec (list T) :=
  MkSpec (vec_C A (s_codec S)) (Forall (s_valid S)) [0xe0; 0xf0] (wire_array (s_wire S))
    (map (s_canon S)) (fun l => Forall (s_encodable S) l /\ total_width width l <> 254) (Forall (s_decodable S)).
(** [Multiple<T>]: a single value may be written without an array. *)
Definition multiple_S {T} (A : aenc T) (width : T -> Z) (S : tspec T) : tspec (list T) :=
  MkSpec (multiple_C A (s_codec S)) (Forall (s_valid S)) (0xe0 :: 0xf0 :: s_codes S)
    (fun l bs => wire_array (s_wire S) l bs \/ exists x, l = [x] /\ s_wire S x bs)
    (map (s_canon S))
    (fun l => Forall (s_encodable S) l /\ (zlen l = 1 \/ total_width width l <> 254)) (Forall (s_decodable S)).
Definition symbols_S : tspec (list symbol) := multiple_S symbol_A (fun s => 4 + zlen (str_bytes s)) symbol_S.

(** ** Enumerations: a table of the wire value of each alternative (part 2, 3 and 5 of the standard) *)
Definition enum_S {T B} (C : codec T) (codes : list Z) (w : B -> bytes -> Prop) (table : list (T * B)) : tspec T :=
  MkSpec C always codes (fun x bs => exists b, In (x, b) table /\ w b bs) same always always.
Definition wire_name (t : string) (bs : bytes) : Prop := wire_symbol (s2b t) bs.
Definition symbol_codes : list Z := [0xa3; 0xb3].
Definition wire_ubyte (v : Z) (bs : bytes) : Prop := 0 <= v < 2 ^ 8 /\ bs = [0x50; v].

Definition role_table := [(Role_Sender, false); (Role_Receiver, true)].
Definition role_S := enum_S role_C [0x41; 0x42; 0x56] wire_boolean role_table.
Definition sender_settle_mode_table :=
  [(SenderSettleMode_Unsettled, 0); (SenderSettleMode_Settled, 1); (SenderSettleMode_Mixed, 2)].
Definition sender_settle_mode_S := enum_S sender_settle_mode_C [0x50] wire_ubyte sender_settle_mode_table.
Definition receiver_settle_mode_table := [(ReceiverSettleMode_First, 0); (ReceiverSettleMode_Second, 1)].
Definition receiver_settle_mode_S := enum_S receiver_settle_mode_C [0x50] wire_ubyte receiver_settle_mode_table.
Definition sasl_code_table :=
  [(SaslCode_Ok, 0); (SaslCode_Auth, 1); (SaslCode_Sys, 2); (SaslCode_SysPerm, 3); (SaslCode_SysTemp, 4)].
Definition sasl_code_S := enum_S sasl_code_C [0x50] wire_ubyte sasl_code_table.
Definition terminus_durability_table :=
  [(TerminusDurability_None, 0); (TerminusDurability_Configuration, 1); (TerminusDurability_UnsettledState, 2)].
Definition terminus_durability_S :=
  enum_S terminus_durability_C [0x43; 0x52; 0x70] wire_uint terminus_durability_table.
Definition terminus_expiry_policy_table :=
  [(TerminusExpiryPolicy_LinkDetach, "link-detach"); (TerminusExpiryPolicy_SessionEnd, "session-end");
   (TerminusExpiryPolicy_ConnectionClose, "connection-close"); (TerminusExpiryPolicy_Never, "never")].
Definition terminus_expiry_policy_S :=
  enum_S terminus_expiry_policy_C symbol_codes wire_name terminus_expiry_policy_table.
Definition amqp_error_table :=
  [(AmqpError_InternalError, "amqp:internal-error"); (AmqpError_NotFound, "amqp:not-found");
   (AmqpError_UnauthorizedAccess, "amqp:unauthorized-access"); (AmqpError_DecodeError, "amqp:decode-error");
   (AmqpError_ResourceLimitExceeded, "amqp:resource-limit-exceeded"); (AmqpError_NotAllowed, "amqp:not-allowed");
   (AmqpError_InvalidField, "amqp:invalid-field"); (AmqpError_NotImplemented, "amqp:not-implemented");
   (AmqpError_ResourceLocked, "amqp:resource-locked"); (AmqpError_PreconditionFailed, "amqp:precondition-failed");
   (AmqpError_ResourceDeleted, "amqp:resource-deleted"); (AmqpError_IllegalState, "amqp:illegal-state");
   (AmqpError_FrameSizeTooSmall, "amqp:frame-size-too-small")].
Definition amqp_error_S := enum_S amqp_error_C symbol_codes wire_name amqp_error_table.
Definition connection_error_table :=
  [(ConnectionError_ConnectionForced, "amqp:connection:forced"); (ConnectionError_FramingError, "amqp:connection:framing-error");
   (ConnectionError_Redirect, "amqp:connection:redirect")].
Definition connection_error_S := enum_S connection_error_C symbol_codes wire_name connection_error_table.
Definition session_error_table :=
  [(SessionError_WindowViolation, "amqp:session:window-violation"); (SessionError_ErrantLink, "amqp:session:errant-link");
   (SessionError_HandleInUse, "amqp:session:handle-in-use"); (SessionError_UnattachedHandle, "amqp:session:unattached-handle")].
Definition session_error_S := enum_S session_error_C symbol_codes wire_name session_error_table.
Definition link_error_table :=
  [(LinkError_DetachForced, "amqp:link:detach-forced"); (LinkError_TransferLimitExceeded, "amqp:link:transfer-limit-exceeded");
   (LinkError_MessageSizeExceeded, "amqp:link:message-size-exceeded"); (LinkError_Redirect, "amqp:link:redirect");
   (LinkError_Stolen, "amqp:link:stolen")].
Definition link_error_S := enum_S link_error_C symbol_codes wire_name link_error_table.

(** ** Open enumerations: predefined symbols and any other symbol *)
Fixpoint lookup_name {T} (text : bytes) (table : list (T * string)) : option T :=
  match table with
  | [] => None
  | (x, t) :: r => if bytes_eqb text (s2b t) then Some x else lookup_name text r
  end.
Definition open_enum_S {T} (C : codec T) (table : list (T * string)) (custom : symbol -> T) (get_custom : T -> option symbol) : tspec T :=
  MkSpec C (fun x => opt_prop symbol_ok (get_custom x)) symbol_codes
    (fun x bs => exists b, wire_symbol b bs /\
       x = match lookup_name b table with Some y => y | None => custom (SByteStr b) end)
    (fun x => match get_custom x with
              | Some s => match lookup_name (str_bytes s) table with Some y => y | None => custom (canon_str s) end
              | None => x
              end)
    always always.
Definition condition_table : list (error_condition * string) :=
  map (fun e => (EC_AmqpError (fst e), snd e)) amqp_error_table ++
  map (fun e => (EC_ConnectionError (fst e), snd e)) connection_error_table ++
  map (fun e => (EC_SessionError (fst e), snd e)) session_error_table ++
  map (fun e => (EC_LinkError (fst e), snd e)) link_error_table.
Definition condition_custom (e : error_condition) : option symbol := match e with EC_Custom s => Some s | _ => None end.
Definition error_condition_S := open_enum_S error_condition_C condition_table EC_Custom condition_custom.
Definition distribution_table := [(DM_Move, "move"); (DM_Copy, "copy")].
Definition distribution_custom (d : distribution_mode) : option symbol := match d with DM_Custom s => Some s | _ => None end.
Definition distribution_mode_S := open_enum_S distribution_mode_C distribution_table DM_Custom distribution_custom.

(** ** [MessageId] *)
Definition message_id_ok (m : message_id) : Prop :=
  match m with
  | MIUlong v => 0 <= v < 2 ^ 64
  | MIUuid u => uuid_ok u
  | MIBinary b => bytes_ok b
  | MIString s => text_ok s
  end.
Definition wire_message_id (m : message_id) (bs : bytes) : Prop :=
  match m with
  | MIUlong v => wire_ulong v bs
  | MIUuid u => uuid_ok u /\ bs = 0x98 :: u
  | MIBinary b => wire_binary b bs
  | MIString s => wire_string s bs
  end.
Definition message_id_S : tspec message_id := MkSpec message_id_C message_id_ok
  [0x44; 0x53; 0x80; 0x98; 0xa0; 0xb0; 0xa1; 0xb1] wire_message_id same always always.
