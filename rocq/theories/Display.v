(** Model of what the errors print: [Display] of /repo/src/errors.rs (derived by derive_more 0.14), with [Debug for Str] of
    /repo/src/types/mod.rs and the derived [Debug] it meets.

    A text is its bytes.  The [{:?}] and [{}] of an unsigned number is its decimal digits.  [{:?}] of a [&'static str] is the
    text in quotes, which is exact for texts without quotes, backslashes and control characters; the names of fields and
    enumerations are of letters and [_] (claim C77_names).  The texts of the errors of other crates are parameters. *)

From Coq Require Import String.
From Verif Require Import Types Io Convert.
Open Scope string_scope.
Open Scope list_scope.
Open Scope Z_scope.

(** Decimal digits (core::fmt): the least significant last. *)
Fixpoint digits (fuel : nat) (n : Z) : bytes :=
  match fuel with
  | O => []
  | S f => (if n <? 10 then [] else digits f (n / 10)) ++ [48 + n mod 10]
  end.
Definition decimal (n : Z) : bytes :=
  if n <? 0 then 45 :: digits (S (Z.to_nat (Z.log2 (- n)))) (- n) else digits (S (Z.to_nat (Z.log2 n))) n.

(** derived [Debug] of [Option<usize>]. *)
Definition option_debug (o : option Z) : bytes :=
  match o with
  | None => s2b "None"
  | Some n => s2b "Some(" ++ decimal n ++ s2b ")"
  end.
(** [Debug] of a [&'static str]. *)
Definition name_debug (s : string) : bytes := [34] ++ s2b s ++ [34].

(** [Debug for Str]: types/mod.rs lines 168-175.  The text is written as it is. *)
Definition str_debug (s : str) : bytes :=
  match s with
  | SByteStr t => s2b "B:" ++ [34] ++ t ++ [34]
  | SStatic t => s2b "S:" ++ [34] ++ t ++ [34]
  end.
(** derived [Debug] of [Symbol]: symbol.rs line 8; of [Descriptor]: types/mod.rs line 13. *)
Definition symbol_debug (s : symbol) : bytes := s2b "Symbol(" ++ str_debug s ++ s2b ")".
Definition descriptor_debug (d : descriptor) : bytes :=
  match d with
  | DUlong v => s2b "Ulong(" ++ decimal v ++ s2b ")"
  | DSymbol s => s2b "Symbol(" ++ symbol_debug s ++ s2b ")"
  end.
(** derived [Debug] of [Multiple<Symbol>]: types/mod.rs line 19 ([Vec] prints its items between brackets). *)
Fixpoint items_debug (l : list bytes) : bytes :=
  match l with
  | [] => []
  | [x] => x
  | x :: r => x ++ s2b ", " ++ items_debug r
  end.
Definition symbols_debug (l : list symbol) : bytes := s2b "Multiple([" ++ items_debug (map symbol_debug l) ++ s2b "])".

(** What [uuid::BytesError], [std::str::Utf8Error] and [std::io::Error] print (their payload is not in the model). *)
Record externals (io_error : Type) : Type := MkExternals { x_uuid : bytes; x_utf8 : bytes; x_io : io_error -> bytes }.
Arguments x_uuid {io_error}. Arguments x_utf8 {io_error}. Arguments x_io {io_error}. Arguments MkExternals {io_error}.

Section Errors.
  Context {io_error : Type} (X : externals io_error).

  (** [Display for AmqpParseError]: errors.rs lines 6-26. *)
  Definition parse_error_display (e : perr) : bytes :=
    match e with
    | EInvalidSize => s2b "Loaded item size is invalid"
    | EIncomplete n => s2b "More data required during frame parsing: '" ++ option_debug n ++ s2b "'"
    | EInvalidFormatCode c => s2b "Unexpected format code: '" ++ decimal c ++ s2b "'"
    | EInvalidChar c => s2b "Invalid value converting to char: " ++ decimal c
    | EInvalidDescriptor d => s2b "Unexpected descriptor: '" ++ descriptor_debug d ++ s2b "'"
    | EUnexpectedFrameType t => s2b "Unexpected frame type: '" ++ decimal t ++ s2b "'"
    | ERequiredFieldOmitted name => s2b "Required field '" ++ name_debug name ++ s2b "' was omitted."
    | EUnknownEnumOption name => s2b "Unknown " ++ name_debug name ++ s2b " option."
    | EUuidParseError => x_uuid X
    | EUtf8Error => x_utf8 X
    end.

  (** [Display for AmqpCodecError]: errors.rs lines 28-35; the field of [Io] is an [Option]. *)
  Definition codec_error_display (e : codec_error io_error) : bytes :=
    match e with
    | KParse err => parse_error_display err
    | KUnparsed => s2b "bytes left unparsed at the frame trail"
    | KIo None => s2b "Io error: None"
    | KIo (Some err) => s2b "Io error: Some(" ++ x_io X err ++ s2b ")"
    end.

  (** [ProtocolIdError]: errors.rs lines 53-66, with the cases that the codec of io.rs does not make; [Debug for ProtocolId]:
      protocol/mod.rs line 32. *)
  Inductive protocol_error := PEHeader | PEIncompatible | PEUnknown | PEUnexpected (exp got : protocol_id) | PEDisconnected | PEIo (e : io_error).
  Definition protocol_id_debug (p : protocol_id) : bytes :=
    match p with
    | PAmqp => s2b "Amqp"
    | PAmqpTls => s2b "AmqpTls"
    | PAmqpSasl => s2b "AmqpSasl"
    end.
  Definition protocol_error_display (e : protocol_error) : bytes :=
    match e with
    | PEHeader => s2b "InvalidHeader"
    | PEIncompatible => s2b "Incompatible"
    | PEUnknown => s2b "Unknown"
    | PEUnexpected exp got => s2b "Expected " ++ protocol_id_debug exp ++ s2b " protocol id, seen " ++ protocol_id_debug got ++ s2b " instead."
    | PEDisconnected => s2b "Disconnected"
    | PEIo err => s2b "io error: " ++ x_io X err
    end.
End Errors.
