(** Model of /repo/src/protocol/mod.rs (lines 51-211) and the pieces shared by the composite types. *)

From Coq Require Import String.
From Verif Require Export Enums.
Open Scope string_scope.
Open Scope list_scope.
Open Scope Z_scope.

(** ** [MessageId]: lines 51-97 *)
Inductive message_id :=
| MIUlong (v : Z)
| MIUuid (u : bytes)
| MIBinary (b : bytes)
| MIString (s : bytes).

Definition message_id_dec : dec message_id := fun md inp fmt =>
  if (fmt =? FC_SMALLULONG) || (fmt =? FC_ULONG) || (fmt =? FC_ULONG_0) then map_res MIUlong (u64_dec md inp fmt)
  else if fmt =? FC_UUID then map_res MIUuid (uuid_dec md inp fmt)
  else if (fmt =? FC_BINARY8) || (fmt =? FC_BINARY32) then map_res MIBinary (bin_dec md inp fmt)
  else if (fmt =? FC_STRING8) || (fmt =? FC_STRING32) then map_res MIString (bstr_dec md inp fmt)
  else Err (EInvalidFormatCode fmt).
Definition message_id_size (m : message_id) : Z :=
  match m with
  | MIUlong v => u64_size v
  | MIUuid v => fixed_size uuid_A v
  | MIBinary v => bin_size v
  | MIString v => bstr_size v
  end.
Definition message_id_enc (m : message_id) : list wop :=
  match m with
  | MIUlong v => u64_enc v
  | MIUuid v => fixed_enc uuid_A v
  | MIBinary v => bin_enc v
  | MIString v => bstr_enc v
  end.
Definition message_id_C : codec message_id := MkCodec (MkEnc message_id_size message_id_enc) message_id_dec.

(** ** [ErrorCondition]: lines 99-148 *)
Inductive error_condition :=
| EC_AmqpError (e : amqp_error)
| EC_ConnectionError (e : connection_error)
| EC_SessionError (e : session_error)
| EC_LinkError (e : link_error)
| EC_Custom (s : symbol).

(** The choice made after the symbol was decoded, lines 112-124. *)
Definition error_condition_of_symbol (s : symbol) : error_condition :=
  match amqp_error_try_from s with
  | Ok r => EC_AmqpError r
  | _ =>
    match connection_error_try_from s with
    | Ok r => EC_ConnectionError r
    | _ =>
      match session_error_try_from s with
      | Ok r => EC_SessionError r
      | _ =>
        match link_error_try_from s with
        | Ok r => EC_LinkError r
        | _ => EC_Custom s
        end
      end
    end
  end.
Definition error_condition_dec : dec error_condition := fun md inp fmt =>
  '(i, s) <- symbol_dec md inp fmt ;;
  Ok (i, error_condition_of_symbol s).
Definition error_condition_size (e : error_condition) : Z :=
  match e with
  | EC_AmqpError v => amqp_error_size v
  | EC_ConnectionError v => connection_error_size v
  | EC_SessionError v => session_error_size v
  | EC_LinkError v => link_error_size v
  | EC_Custom v => symbol_size v
  end.
Definition error_condition_enc (e : error_condition) : list wop :=
  match e with
  | EC_AmqpError v => amqp_error_enc v
  | EC_ConnectionError v => connection_error_enc v
  | EC_SessionError v => session_error_enc v
  | EC_LinkError v => link_error_enc v
  | EC_Custom v => symbol_enc v
  end.
Definition error_condition_C : codec error_condition :=
  MkCodec (MkEnc error_condition_size error_condition_enc) error_condition_dec.

(** ** [DistributionMode]: lines 150-185 *)
Inductive distribution_mode := DM_Move | DM_Copy | DM_Custom (s : symbol).

Definition distribution_mode_of_symbol (s : symbol) : distribution_mode :=
  if sym_is s "move" then DM_Move
  else if sym_is s "copy" then DM_Copy
  else DM_Custom s.
Definition distribution_mode_dec : dec distribution_mode := fun md inp fmt =>
  '(i, s) <- symbol_dec md inp fmt ;;
  Ok (i, distribution_mode_of_symbol s).
Definition distribution_mode_size (d : distribution_mode) : Z :=
  match d with
  | DM_Move => 6
  | DM_Copy => 6
  | DM_Custom v => symbol_size v
  end.
Definition distribution_mode_enc (d : distribution_mode) : list wop :=
  match d with
  | DM_Move => symbol_enc (symbol_from_static (s2b "move"))
  | DM_Copy => symbol_enc (symbol_from_static (s2b "copy"))
  | DM_Custom v => symbol_enc v
  end.
Definition distribution_mode_C : codec distribution_mode :=
  MkCodec (MkEnc distribution_mode_size distribution_mode_enc) distribution_mode_dec.

(** [SaslInit::prepare_response]: lines 187-191. *)
Definition prepare_response (authz_id authn_id password : bytes) : bytes :=
  authz_id ++ [0] ++ authn_id ++ [0] ++ password.

(** ** Shared text of the composite types of definitions.rs *)

(** The list header of a composite: its declared size must be available; the fields are read from exactly that
    many bytes ([split_at]).  Result: the state (field bytes, number of fields left) and the bytes after the list.
    definitions.rs, e.g. lines 1087-1092 for [Error]. *)
Definition field_state := (bytes * Z)%type.
Definition open_list (md : mode) (inp : bytes) : res (field_state * bytes) :=
  '(inp1, format) <- decode_format_code inp ;;
  '(inp2, header) <- decode_list_header md inp1 format ;;
  let size := ch_size header in
  _ <- check_len inp2 size ;;
  Ok ((ztake size inp2, ch_count header), zdrop size inp2).

(** Mandatory field, e.g. lines 1093-1101. *)
Definition req_field {T} (name : string) (C : codec T) (md : mode) (s : field_state) : res (field_state * T) :=
  let (inp, count) := s in
  if 0 <? count then
    '(in1, decoded) <- decode (c_D C) md inp ;;
    Ok ((in1, count - 1), decoded)
  else Err (ERequiredFieldOmitted name).
(** Optional field, e.g. lines 1102-1110. *)
Definition opt_field {T} (C : codec T) (md : mode) (s : field_state) : res (field_state * option T) :=
  let (inp, count) := s in
  if 0 <? count then
    '(in1, decoded) <- decode (option_dec (c_D C)) md inp ;;
    Ok ((in1, count - 1), decoded)
  else Ok (s, None).
(** Field with a default, e.g. lines 1256-1264. *)
Definition def_field {T} (C : codec T) (dflt : T) (md : mode) (s : field_state) : res (field_state * T) :=
  let (inp, count) := s in
  if 0 <? count then
    '(in1, decoded) <- decode (option_dec (c_D C)) md inp ;;
    Ok ((in1, count - 1), match decoded with Some x => x | None => dflt end)
  else Ok (s, dflt).

(** Size from the content size, e.g. lines 1134-1140. *)
Definition composite_size (content_size : Z) : Z :=
  (if 255 <? content_size + 1 then 12 else 6) + content_size.
(** Descriptor and list header, e.g. lines 1143-1157. *)
Definition composite_header (code : Z) (field_count : Z) (content_size : Z) : list wop :=
  descriptor_enc (DUlong code)
  ++ (if 255 <? content_size + 1
      then [put_u8 FC_LIST32; put_u32_be (content_size + 4); put_u32_be field_count]
      else [put_u8 FC_LIST8; put_u8 (content_size + 1); put_u8 field_count]).

(** [DecodeFormatted] of a composite, e.g. lines 1162-1176. *)
Definition composite_dec {T} (code : Z) (name : string) (inner : mode -> bytes -> res (bytes * T)) : dec T :=
  fun md inp fmt =>
  _ <- validate_code fmt FC_DESCRIBED ;;
  '(inp1, d) <- decode descriptor_dec md inp ;;
  if match d with
     | DUlong val => val =? code
     | DSymbol sym => bytes_eqb (str_bytes sym) (s2b name)
     end
  then inner md inp1
  else Err (EInvalidDescriptor d).
