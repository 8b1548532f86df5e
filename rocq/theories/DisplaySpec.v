(** Specification: what the errors print (file DisplayClaims). *)

From Coq Require Import String.
From Verif Require Import Frames Utf8Spec Valid Wire TypeSpec CompositeSpec AllTypes CodecSpec FrameSpec Io Convert ErrorSpec Display.
Open Scope string_scope.
Open Scope list_scope.
Open Scope Z_scope.

(** A number written in decimal: digits without a superfluous zero in front, worth the number; a minus before a negative one. *)
Definition digit (c : Z) : Prop := 48 <= c <= 57.
Fixpoint worth (before : Z) (t : bytes) : Z :=
  match t with
  | [] => before
  | c :: r => worth (10 * before + (c - 48)) r
  end.
Definition written (n : Z) (t : bytes) : Prop :=
  t <> [] /\ Forall digit t /\ worth 0 t = n /\ (hd 48 t = 48 -> t = [48]).
Definition number (n : Z) (t : bytes) : Prop := if n <? 0 then exists r, t = 45 :: r /\ written (- n) r else written n t.

(** The texts of other crates: those of uuid and of the standard library for bad UTF-8 begin with "in" ("invalid", "incomplete")
    and are not the same; I/O errors are told apart by what they print. *)
Definition begins (a t : bytes) : Prop := exists r, t = a ++ r.
Definition others {E} (X : externals E) : Prop := begins (s2b "in") (x_uuid X) /\ begins (s2b "in") (x_utf8 X) /\ x_uuid X <> x_utf8 X.
Definition io_told {E} (X : externals E) : Prop := forall a b, x_io X a = x_io X b -> a = b.

(** A name of letters and [_]. *)
Definition plain (s : string) : Prop := Forall (fun c => 65 <= c <= 90 \/ 97 <= c <= 122 \/ c = 95) (s2b s).

(** What a message says of the bytes that were read. *)
Definition quote : bytes := [34].
Definition tells {E} (X : externals E) (inp t : bytes) : Prop :=
  (exists n d, 1 <= n /\ number n d /\ t = s2b "More data required during frame parsing: 'Some(" ++ d ++ s2b ")'") \/
  (exists c d, In c inp /\ number c d /\ t = s2b "Unexpected format code: '" ++ d ++ s2b "'") \/
  (exists c d, part (be4 c) inp /\ ~ scalar c /\ number c d /\ t = s2b "Invalid value converting to char: " ++ d) \/
  (exists v d label, wire_descriptor (DUlong v) label /\ part label inp /\ number v d /\
     t = s2b "Unexpected descriptor: 'Ulong(" ++ d ++ s2b ")'") \/
  (exists s label, wire_descriptor (DSymbol (SByteStr s)) label /\ part label inp /\
     t = s2b "Unexpected descriptor: 'Symbol(Symbol(B:" ++ quote ++ s ++ quote ++ s2b "))'") \/
  (exists code type names name label, In (code, type, names) mandatory_fields /\ In name names /\ wire_label code type label /\ part label inp /\
     t = s2b "Required field '" ++ quote ++ s2b name ++ quote ++ s2b "' was omitted.") \/
  (exists name, ((exists opts n, In (name, opts) numbered /\ ~ In n opts /\ (part [n] inp \/ part (be4 n) inp)) \/
       (exists opts w bs, In (name, opts) spelled /\ ~ In w (map s2b opts) /\ counted w bs /\ part bs inp)) /\
     t = s2b "Unknown " ++ quote ++ s2b name ++ quote ++ s2b " option.") \/
  (exists s bs, ~ is_utf8 s /\ counted s bs /\ part bs inp /\ t = x_utf8 X).
Definition frame_tells {E} (X : externals E) (type : Z) (inp t : bytes) : Prop :=
  (exists y d, nth_error inp 1 = Some y /\ y <> type /\ number y d /\ t = s2b "Unexpected frame type: '" ++ d ++ s2b "'") \/
  ((exists doff r, inp = doff :: type :: r /\ doff < 2) /\ t = s2b "Loaded item size is invalid") \/
  tells X inp t.

(** The names of the protocols. *)
Definition protocol_name (p : protocol_id) : string :=
  match p with
  | PAmqp => "Amqp"
  | PAmqpTls => "AmqpTls"
  | PAmqpSasl => "AmqpSasl"
  end.

(** Texts of other crates, for the examples. *)
Definition sample_texts : externals Z :=
  MkExternals (s2b "invalid bytes length: expected 16, found 3") (s2b "invalid utf-8 sequence of 1 bytes from index 0") (fun n => [n]).
