(** /repo/codegen/specification.json (lines 1-1233) as a JSON value, written mechanically from the file. *)

From Coq Require Import String.
From Verif Require Import Base Codegen.
Open Scope string_scope.
Open Scope list_scope.
Open Scope Z_scope.

Local Definition S (s : string) : json := JStr (s2b s).
Local Definition O (l : list (string * json)) : json := JObj (map (fun e => (s2b (fst e), snd e)) l).

Definition specification : json := JArr [
  O [("name", S "role"); ("class", S "restricted"); ("source", S "boolean"); ("choice", JArr [
      O [("name", S "sender"); ("value", S "false")];
      O [("name", S "receiver"); ("value", S "true")]])];
  O [("name", S "sender-settle-mode"); ("class", S "restricted"); ("source", S "ubyte"); ("choice", JArr [
      O [("name", S "unsettled"); ("value", S "0")];
      O [("name", S "settled"); ("value", S "1")];
      O [("name", S "mixed"); ("value", S "2")]])];
  O [("name", S "receiver-settle-mode"); ("class", S "restricted"); ("source", S "ubyte"); ("choice", JArr [
      O [("name", S "first"); ("value", S "0")];
      O [("name", S "second"); ("value", S "1")]])];
  O [("name", S "handle"); ("class", S "restricted"); ("source", S "uint")];
  O [("name", S "seconds"); ("class", S "restricted"); ("source", S "uint")];
  O [("name", S "milliseconds"); ("class", S "restricted"); ("source", S "uint")];
  O [("name", S "delivery-tag"); ("class", S "restricted"); ("source", S "binary")];
  O [("name", S "sequence-no"); ("class", S "restricted"); ("source", S "uint")];
  O [("name", S "delivery-number"); ("class", S "restricted"); ("source", S "sequence-no")];
  O [("name", S "transfer-number"); ("class", S "restricted"); ("source", S "sequence-no")];
  O [("name", S "message-format"); ("class", S "restricted"); ("source", S "uint")];
  O [("name", S "ietf-language-tag"); ("class", S "restricted"); ("source", S "symbol")];
  O [("name", S "fields"); ("class", S "restricted"); ("source", S "map")];
  O [("name", S "error"); ("class", S "composite"); ("source", S "list"); ("descriptor", O [("name", S "amqp:error:list"); ("code", S "0x00000000:0x0000001d")]); ("field", JArr [
      O [("name", S "condition"); ("type", S "symbol"); ("requires", S "error-condition"); ("mandatory", S "true")];
      O [("name", S "description"); ("type", S "string")];
      O [("name", S "info"); ("type", S "fields")]])];
  O [("name", S "amqp-error"); ("class", S "restricted"); ("source", S "symbol"); ("provides", S "error-condition"); ("choice", JArr [
      O [("name", S "internal-error"); ("value", S "amqp:internal-error")];
      O [("name", S "not-found"); ("value", S "amqp:not-found")];
      O [("name", S "unauthorized-access"); ("value", S "amqp:unauthorized-access")];
      O [("name", S "decode-error"); ("value", S "amqp:decode-error")];
      O [("name", S "resource-limit-exceeded"); ("value", S "amqp:resource-limit-exceeded")];
      O [("name", S "not-allowed"); ("value", S "amqp:not-allowed")];
      O [("name", S "invalid-field"); ("value", S "amqp:invalid-field")];
      O [("name", S "not-implemented"); ("value", S "amqp:not-implemented")];
      O [("name", S "resource-locked"); ("value", S "amqp:resource-locked")];
      O [("name", S "precondition-failed"); ("value", S "amqp:precondition-failed")];
      O [("name", S "resource-deleted"); ("value", S "amqp:resource-deleted")];
      O [("name", S "illegal-state"); ("value", S "amqp:illegal-state")];
      O [("name", S "frame-size-too-small"); ("value", S "amqp:frame-size-too-small")]])];
  O [("name", S "connection-error"); ("class", S "restricted"); ("source", S "symbol"); ("provides", S "error-condition"); ("choice", JArr [
      O [("name", S "connection-forced"); ("value", S "amqp:connection:forced")];
      O [("name", S "framing-error"); ("value", S "amqp:connection:framing-error")];
      O [("name", S "redirect"); ("value", S "amqp:connection:redirect")]])];
  O [("name", S "session-error"); ("class", S "restricted"); ("source", S "symbol"); ("provides", S "error-condition"); ("choice", JArr [
      O [("name", S "window-violation"); ("value", S "amqp:session:window-violation")];
      O [("name", S "errant-link"); ("value", S "amqp:session:errant-link")];
      O [("name", S "handle-in-use"); ("value", S "amqp:session:handle-in-use")];
      O [("name", S "unattached-handle"); ("value", S "amqp:session:unattached-handle")]])];
  O [("name", S "link-error"); ("class", S "restricted"); ("source", S "symbol"); ("provides", S "error-condition"); ("choice", JArr [
      O [("name", S "detach-forced"); ("value", S "amqp:link:detach-forced")];
      O [("name", S "transfer-limit-exceeded"); ("value", S "amqp:link:transfer-limit-exceeded")];
      O [("name", S "message-size-exceeded"); ("value", S "amqp:link:message-size-exceeded")];
      O [("name", S "redirect"); ("value", S "amqp:link:redirect")];
      O [("name", S "stolen"); ("value", S "amqp:link:stolen")]])];
  O [("name", S "open"); ("class", S "composite"); ("source", S "list"); ("provides", S "frame"); ("descriptor", O [("name", S "amqp:open:list"); ("code", S "0x00000000:0x00000010")]); ("field", JArr [
      O [("name", S "container-id"); ("type", S "string"); ("mandatory", S "true")];
      O [("name", S "hostname"); ("type", S "string")];
      O [("name", S "max-frame-size"); ("type", S "uint"); ("default", S "4294967295")];
      O [("name", S "channel-max"); ("type", S "ushort"); ("default", S "65535")];
      O [("name", S "idle-time-out"); ("type", S "milliseconds")];
      O [("name", S "outgoing-locales"); ("type", S "ietf-language-tag"); ("multiple", S "true")];
      O [("name", S "incoming-locales"); ("type", S "ietf-language-tag"); ("multiple", S "true")];
      O [("name", S "offered-capabilities"); ("type", S "symbol"); ("multiple", S "true")];
      O [("name", S "desired-capabilities"); ("type", S "symbol"); ("multiple", S "true")];
      O [("name", S "properties"); ("type", S "fields")]])];
  O [("name", S "begin"); ("class", S "composite"); ("source", S "list"); ("provides", S "frame"); ("descriptor", O [("name", S "amqp:begin:list"); ("code", S "0x00000000:0x00000011")]); ("field", JArr [
      O [("name", S "remote-channel"); ("type", S "ushort")];
      O [("name", S "next-outgoing-id"); ("type", S "transfer-number"); ("mandatory", S "true")];
      O [("name", S "incoming-window"); ("type", S "uint"); ("mandatory", S "true")];
      O [("name", S "outgoing-window"); ("type", S "uint"); ("mandatory", S "true")];
      O [("name", S "handle-max"); ("type", S "handle"); ("default", S "4294967295")];
      O [("name", S "offered-capabilities"); ("type", S "symbol"); ("multiple", S "true")];
      O [("name", S "desired-capabilities"); ("type", S "symbol"); ("multiple", S "true")];
      O [("name", S "properties"); ("type", S "fields")]])];
  O [("name", S "attach"); ("class", S "composite"); ("source", S "list"); ("provides", S "frame"); ("descriptor", O [("name", S "amqp:attach:list"); ("code", S "0x00000000:0x00000012")]); ("field", JArr [
      O [("name", S "name"); ("type", S "string"); ("mandatory", S "true")];
      O [("name", S "handle"); ("type", S "handle"); ("mandatory", S "true")];
      O [("name", S "role"); ("type", S "role"); ("mandatory", S "true")];
      O [("name", S "snd-settle-mode"); ("type", S "sender-settle-mode"); ("default", S "mixed")];
      O [("name", S "rcv-settle-mode"); ("type", S "receiver-settle-mode"); ("default", S "first")];
      O [("name", S "source"); ("type", S "*"); ("requires", S "source")];
      O [("name", S "target"); ("type", S "*"); ("requires", S "target")];
      O [("name", S "unsettled"); ("type", S "map")];
      O [("name", S "incomplete-unsettled"); ("type", S "boolean"); ("default", S "false")];
      O [("name", S "initial-delivery-count"); ("type", S "sequence-no")];
      O [("name", S "max-message-size"); ("type", S "ulong")];
      O [("name", S "offered-capabilities"); ("type", S "symbol"); ("multiple", S "true")];
      O [("name", S "desired-capabilities"); ("type", S "symbol"); ("multiple", S "true")];
      O [("name", S "properties"); ("type", S "fields")]])];
  O [("name", S "flow"); ("class", S "composite"); ("source", S "list"); ("provides", S "frame"); ("descriptor", O [("name", S "amqp:flow:list"); ("code", S "0x00000000:0x00000013")]); ("field", JArr [
      O [("name", S "next-incoming-id"); ("type", S "transfer-number")];
      O [("name", S "incoming-window"); ("type", S "uint"); ("mandatory", S "true")];
      O [("name", S "next-outgoing-id"); ("type", S "transfer-number"); ("mandatory", S "true")];
      O [("name", S "outgoing-window"); ("type", S "uint"); ("mandatory", S "true")];
      O [("name", S "handle"); ("type", S "handle")];
      O [("name", S "delivery-count"); ("type", S "sequence-no")];
      O [("name", S "link-credit"); ("type", S "uint")];
      O [("name", S "available"); ("type", S "uint")];
      O [("name", S "drain"); ("type", S "boolean"); ("default", S "false")];
      O [("name", S "echo"); ("type", S "boolean"); ("default", S "false")];
      O [("name", S "properties"); ("type", S "fields")]])];
  O [("name", S "transfer"); ("class", S "composite"); ("source", S "list"); ("provides", S "frame"); ("descriptor", O [("name", S "amqp:transfer:list"); ("code", S "0x00000000:0x00000014")]); ("field", JArr [
      O [("name", S "handle"); ("type", S "handle"); ("mandatory", S "true")];
      O [("name", S "delivery-id"); ("type", S "delivery-number")];
      O [("name", S "delivery-tag"); ("type", S "delivery-tag")];
      O [("name", S "message-format"); ("type", S "message-format")];
      O [("name", S "settled"); ("type", S "boolean")];
      O [("name", S "more"); ("type", S "boolean"); ("default", S "false")];
      O [("name", S "rcv-settle-mode"); ("type", S "receiver-settle-mode")];
      O [("name", S "state"); ("type", S "*"); ("requires", S "delivery-state")];
      O [("name", S "resume"); ("type", S "boolean"); ("default", S "false")];
      O [("name", S "aborted"); ("type", S "boolean"); ("default", S "false")];
      O [("name", S "batchable"); ("type", S "boolean"); ("default", S "false")]])];
  O [("name", S "disposition"); ("class", S "composite"); ("source", S "list"); ("provides", S "frame"); ("descriptor", O [("name", S "amqp:disposition:list"); ("code", S "0x00000000:0x00000015")]); ("field", JArr [
      O [("name", S "role"); ("type", S "role"); ("mandatory", S "true")];
      O [("name", S "first"); ("type", S "delivery-number"); ("mandatory", S "true")];
      O [("name", S "last"); ("type", S "delivery-number")];
      O [("name", S "settled"); ("type", S "boolean"); ("default", S "false")];
      O [("name", S "state"); ("type", S "*"); ("requires", S "delivery-state")];
      O [("name", S "batchable"); ("type", S "boolean"); ("default", S "false")]])];
  O [("name", S "detach"); ("class", S "composite"); ("source", S "list"); ("provides", S "frame"); ("descriptor", O [("name", S "amqp:detach:list"); ("code", S "0x00000000:0x00000016")]); ("field", JArr [
      O [("name", S "handle"); ("type", S "handle"); ("mandatory", S "true")];
      O [("name", S "closed"); ("type", S "boolean"); ("default", S "false")];
      O [("name", S "error"); ("type", S "error")]])];
  O [("name", S "end"); ("class", S "composite"); ("source", S "list"); ("provides", S "frame"); ("descriptor", O [("name", S "amqp:end:list"); ("code", S "0x00000000:0x00000017")]); ("field", JArr [
      O [("name", S "error"); ("type", S "error")]])];
  O [("name", S "close"); ("class", S "composite"); ("source", S "list"); ("provides", S "frame"); ("descriptor", O [("name", S "amqp:close:list"); ("code", S "0x00000000:0x00000018")]); ("field", JArr [
      O [("name", S "error"); ("type", S "error")]])];
  O [("name", S "sasl-code"); ("class", S "restricted"); ("source", S "ubyte"); ("choice", JArr [
      O [("name", S "ok"); ("value", S "0")];
      O [("name", S "auth"); ("value", S "1")];
      O [("name", S "sys"); ("value", S "2")];
      O [("name", S "sys-perm"); ("value", S "3")];
      O [("name", S "sys-temp"); ("value", S "4")]])];
  O [("name", S "sasl-mechanisms"); ("class", S "composite"); ("source", S "list"); ("provides", S "sasl-frame-body"); ("descriptor", O [("name", S "amqp:sasl-mechanisms:list"); ("code", S "0x00000000:0x00000040")]); ("field", JArr [
      O [("name", S "sasl-server-mechanisms"); ("type", S "symbol"); ("multiple", S "true"); ("mandatory", S "true")]])];
  O [("name", S "sasl-init"); ("class", S "composite"); ("source", S "list"); ("provides", S "sasl-frame-body"); ("descriptor", O [("name", S "amqp:sasl-init:list"); ("code", S "0x00000000:0x00000041")]); ("field", JArr [
      O [("name", S "mechanism"); ("type", S "symbol"); ("mandatory", S "true")];
      O [("name", S "initial-response"); ("type", S "binary")];
      O [("name", S "hostname"); ("type", S "string")]])];
  O [("name", S "sasl-challenge"); ("class", S "composite"); ("source", S "list"); ("provides", S "sasl-frame-body"); ("descriptor", O [("name", S "amqp:sasl-challenge:list"); ("code", S "0x00000000:0x00000042")]); ("field", JArr [
      O [("name", S "challenge"); ("type", S "binary"); ("mandatory", S "true")]])];
  O [("name", S "sasl-response"); ("class", S "composite"); ("source", S "list"); ("provides", S "sasl-frame-body"); ("descriptor", O [("name", S "amqp:sasl-response:list"); ("code", S "0x00000000:0x00000043")]); ("field", JArr [
      O [("name", S "response"); ("type", S "binary"); ("mandatory", S "true")]])];
  O [("name", S "sasl-outcome"); ("class", S "composite"); ("source", S "list"); ("provides", S "sasl-frame-body"); ("descriptor", O [("name", S "amqp:sasl-outcome:list"); ("code", S "0x00000000:0x00000044")]); ("field", JArr [
      O [("name", S "code"); ("type", S "sasl-code"); ("mandatory", S "true")];
      O [("name", S "additional-data"); ("type", S "binary")]])];
  O [("name", S "terminus-durability"); ("class", S "restricted"); ("source", S "uint"); ("choice", JArr [
      O [("name", S "none"); ("value", S "0")];
      O [("name", S "configuration"); ("value", S "1")];
      O [("name", S "unsettled-state"); ("value", S "2")]])];
  O [("name", S "terminus-expiry-policy"); ("class", S "restricted"); ("source", S "symbol"); ("choice", JArr [
      O [("name", S "link-detach"); ("value", S "link-detach")];
      O [("name", S "session-end"); ("value", S "session-end")];
      O [("name", S "connection-close"); ("value", S "connection-close")];
      O [("name", S "never"); ("value", S "never")]])];
  O [("name", S "node-properties"); ("class", S "restricted"); ("source", S "fields")];
  O [("name", S "filter-set"); ("class", S "restricted"); ("source", S "map")];
  O [("name", S "source"); ("class", S "composite"); ("source", S "list"); ("provides", S "source"); ("descriptor", O [("name", S "amqp:source:list"); ("code", S "0x00000000:0x00000028")]); ("field", JArr [
      O [("name", S "address"); ("type", S "*"); ("requires", S "address")];
      O [("name", S "durable"); ("type", S "terminus-durability"); ("default", S "none")];
      O [("name", S "expiry-policy"); ("type", S "terminus-expiry-policy"); ("default", S "session-end")];
      O [("name", S "timeout"); ("type", S "seconds"); ("default", S "0")];
      O [("name", S "dynamic"); ("type", S "boolean"); ("default", S "false")];
      O [("name", S "dynamic-node-properties"); ("type", S "node-properties")];
      O [("name", S "distribution-mode"); ("type", S "symbol"); ("requires", S "distribution-mode")];
      O [("name", S "filter"); ("type", S "filter-set")];
      O [("name", S "default-outcome"); ("type", S "*"); ("requires", S "outcome")];
      O [("name", S "outcomes"); ("type", S "symbol"); ("multiple", S "true")];
      O [("name", S "capabilities"); ("type", S "symbol"); ("multiple", S "true")]])];
  O [("name", S "target"); ("class", S "composite"); ("source", S "list"); ("provides", S "target"); ("descriptor", O [("name", S "amqp:target:list"); ("code", S "0x00000000:0x00000029")]); ("field", JArr [
      O [("name", S "address"); ("type", S "*"); ("requires", S "address")];
      O [("name", S "durable"); ("type", S "terminus-durability"); ("default", S "none")];
      O [("name", S "expiry-policy"); ("type", S "terminus-expiry-policy"); ("default", S "session-end")];
      O [("name", S "timeout"); ("type", S "seconds"); ("default", S "0")];
      O [("name", S "dynamic"); ("type", S "boolean"); ("default", S "false")];
      O [("name", S "dynamic-node-properties"); ("type", S "node-properties")];
      O [("name", S "capabilities"); ("type", S "symbol"); ("multiple", S "true")]])];
  O [("name", S "annotations"); ("class", S "restricted"); ("source", S "map")];
  O [("name", S "message-id-ulong"); ("class", S "restricted"); ("source", S "ulong"); ("provides", S "message-id")];
  O [("name", S "message-id-uuid"); ("class", S "restricted"); ("source", S "uuid"); ("provides", S "message-id")];
  O [("name", S "message-id-binary"); ("class", S "restricted"); ("source", S "binary"); ("provides", S "message-id")];
  O [("name", S "message-id-string"); ("class", S "restricted"); ("source", S "string"); ("provides", S "message-id")];
  O [("name", S "address"); ("class", S "restricted"); ("source", S "string"); ("provides", S "address")];
  O [("name", S "header"); ("class", S "composite"); ("source", S "list"); ("provides", S "section"); ("descriptor", O [("name", S "amqp:header:list"); ("code", S "0x00000000:0x00000070")]); ("field", JArr [
      O [("name", S "durable"); ("type", S "boolean"); ("default", S "false")];
      O [("name", S "priority"); ("type", S "ubyte"); ("default", S "4")];
      O [("name", S "ttl"); ("type", S "milliseconds")];
      O [("name", S "first-acquirer"); ("type", S "boolean"); ("default", S "false")];
      O [("name", S "delivery-count"); ("type", S "uint"); ("default", S "0")]])];
  O [("name", S "delivery-annotations"); ("class", S "restricted"); ("source", S "annotations"); ("provides", S "section"); ("descriptor", O [("name", S "amqp:delivery-annotations:map"); ("code", S "0x00000000:0x00000071")])];
  O [("name", S "message-annotations"); ("class", S "restricted"); ("source", S "annotations"); ("provides", S "section"); ("descriptor", O [("name", S "amqp:message-annotations:map"); ("code", S "0x00000000:0x00000072")])];
  O [("name", S "application-properties"); ("class", S "restricted"); ("source", S "string-variant-map"); ("provides", S "section"); ("descriptor", O [("name", S "amqp:application-properties:map"); ("code", S "0x00000000:0x00000074")])];
  O [("name", S "data"); ("class", S "restricted"); ("source", S "binary"); ("provides", S "section"); ("descriptor", O [("name", S "amqp:data:binary"); ("code", S "0x00000000:0x00000075")])];
  O [("name", S "amqp-sequence"); ("class", S "restricted"); ("source", S "list"); ("provides", S "section"); ("descriptor", O [("name", S "amqp:amqp-sequence:list"); ("code", S "0x00000000:0x00000076")])];
  O [("name", S "amqp-value"); ("class", S "restricted"); ("source", S "*"); ("provides", S "section"); ("descriptor", O [("name", S "amqp:amqp-value:*"); ("code", S "0x00000000:0x00000077")])];
  O [("name", S "footer"); ("class", S "restricted"); ("source", S "annotations"); ("provides", S "section"); ("descriptor", O [("name", S "amqp:footer:map"); ("code", S "0x00000000:0x00000078")])];
  O [("name", S "properties"); ("class", S "composite"); ("source", S "list"); ("provides", S "section"); ("descriptor", O [("name", S "amqp:properties:list"); ("code", S "0x00000000:0x00000073")]); ("field", JArr [
      O [("name", S "message-id"); ("type", S "*"); ("requires", S "message-id")];
      O [("name", S "user-id"); ("type", S "binary")];
      O [("name", S "to"); ("type", S "*"); ("requires", S "address")];
      O [("name", S "subject"); ("type", S "string")];
      O [("name", S "reply-to"); ("type", S "*"); ("requires", S "address")];
      O [("name", S "correlation-id"); ("type", S "*"); ("requires", S "message-id")];
      O [("name", S "content-type"); ("type", S "symbol")];
      O [("name", S "content-encoding"); ("type", S "symbol")];
      O [("name", S "absolute-expiry-time"); ("type", S "timestamp")];
      O [("name", S "creation-time"); ("type", S "timestamp")];
      O [("name", S "group-id"); ("type", S "string")];
      O [("name", S "group-sequence"); ("type", S "sequence-no")];
      O [("name", S "reply-to-group-id"); ("type", S "string")]])];
  O [("name", S "received"); ("class", S "composite"); ("source", S "list"); ("provides", S "delivery-state"); ("descriptor", O [("name", S "amqp:received:list"); ("code", S "0x00000000:0x00000023")]); ("field", JArr [
      O [("name", S "section-number"); ("type", S "uint"); ("mandatory", S "true")];
      O [("name", S "section-offset"); ("type", S "ulong"); ("mandatory", S "true")]])];
  O [("name", S "accepted"); ("class", S "composite"); ("source", S "list"); ("provides", S "delivery-state, outcome"); ("descriptor", O [("name", S "amqp:accepted:list"); ("code", S "0x00000000:0x00000024")])];
  O [("name", S "rejected"); ("class", S "composite"); ("source", S "list"); ("provides", S "delivery-state, outcome"); ("descriptor", O [("name", S "amqp:rejected:list"); ("code", S "0x00000000:0x00000025")]); ("field", JArr [
      O [("name", S "error"); ("type", S "error")]])];
  O [("name", S "released"); ("class", S "composite"); ("source", S "list"); ("provides", S "delivery-state, outcome"); ("descriptor", O [("name", S "amqp:released:list"); ("code", S "0x00000000:0x00000026")])];
  O [("name", S "modified"); ("class", S "composite"); ("source", S "list"); ("provides", S "delivery-state, outcome"); ("descriptor", O [("name", S "amqp:modified:list"); ("code", S "0x00000000:0x00000027")]); ("field", JArr [
      O [("name", S "delivery-failed"); ("type", S "boolean")];
      O [("name", S "undeliverable-here"); ("type", S "boolean")];
      O [("name", S "message-annotations"); ("type", S "fields")]])]].
