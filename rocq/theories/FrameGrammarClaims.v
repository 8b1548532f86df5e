(** The claim C68 as theorems: exactly which bytes are read as performatives, frames, messages and streams of frames.  The
    vocabulary is in FrameGrammarSpec.v (and, for the types inside, in GrammarSpec.v). *)

From Coq Require Import String.
From Verif Require Import Io Utf8Spec Valid Wire TypeSpec CompositeSpec AllTypes CodecSpec MessageSpec FrameSpec StreamSpec GrammarSpec
  FrameGrammarSpec FramingFacts GrammarFacts FrameGrammarFacts.
Open Scope string_scope.
Open Scope list_scope.
Open Scope Z_scope.

(** ** C68 *)
(** There is a grammar of what frames carry, and only one. *)
Theorem C68_exists : exists G, frame_grammar G.
Proof. exact has_frame. Qed.
Print Assumptions C68_exists.
Theorem C68_unique : forall G1 G2, frame_grammar G1 -> frame_grammar G2 -> forall md f bs, bytes_ok bs -> (G1 md f bs <-> G2 md f bs).
Proof. exact frame_unique. Qed.
Print Assumptions C68_unique.
(** Performatives: nothing but what the grammar says is read, and all of that is. *)
Theorem C68_frame : forall G, frame_grammar G -> forall md inp rest f, bytes_ok inp ->
  (frame_decode md inp = Ok (rest, f) <-> exists bs, inp = bs ++ rest /\ G md f bs /\ (takes_rest f -> rest = [])).
Proof. exact frame_language. Qed.
Print Assumptions C68_frame.
(** The encodings the standard allows, of values the crate can represent, belong to the grammar. *)
Theorem C68_standard : forall G, frame_grammar G -> forall md f bs, bytes_ok bs -> wire_frame f bs -> frame_decodable f -> G md f bs.
Proof. exact frame_standard. Qed.
Print Assumptions C68_standard.
(** The same for whole frames after their length. *)
Theorem C68_amqp : forall G, frame_grammar G -> forall md inp rest f, bytes_ok inp ->
  (amqp_frame_decode md inp = Ok (rest, f) <->
   exists bs, inp = bs ++ rest /\ amqp_grammar G md f bs /\ (takes_rest (af_performative f) -> rest = [])).
Proof. exact amqp_language. Qed.
Print Assumptions C68_amqp.
Theorem C68_sasl : forall G, grammar sasl_frame_body_S G -> forall md inp rest f, bytes_ok inp ->
  (sasl_frame_decode md inp = Ok (rest, f) <-> exists bs, inp = bs ++ rest /\ sasl_grammar G md f bs).
Proof. exact sasl_language. Qed.
Print Assumptions C68_sasl.
(** A transfer with one field, two bytes more inside the list than the field takes, and a payload. *)
Example C68_transfer_example : exists G, frame_grammar G /\
  let bs := [0x00; 0x53; 0x14; 0xc0; 5; 1; 0x52; 7; 0xaa; 0xbb; 1; 2; 3] in
  let f := FR_Transfer (MkTransfer 7 None None None None false None None false false false (Some (TBData [1; 2; 3]))) in
  bytes_ok bs /\ frame_decode Debug bs = Ok ([], f) /\ G Debug f bs /\ amqp_grammar G Debug (MkAmqpFrame 513 f) ([3; 0; 2; 1; 0xee; 0xee; 0xee; 0xee] ++ bs).
Proof.
  destruct C68_exists as [G HG]. exists G. split; [exact HG|]. cbv zeta.
  assert (B : bytes_ok [0x00; 0x53; 0x14; 0xc0; 5; 1; 0x52; 7; 0xaa; 0xbb; 1; 2; 3]) by (repeat constructor; vm_compute; congruence).
  split; [exact B|]. split; [vm_compute; reflexivity|].
  assert (E : G Debug (FR_Transfer (MkTransfer 7 None None None None false None None false false false (Some (TBData [1; 2; 3]))))
    [0x00; 0x53; 0x14; 0xc0; 5; 1; 0x52; 7; 0xaa; 0xbb; 1; 2; 3]).
  { destruct (proj1 (C68_frame G HG Debug _ [] (FR_Transfer (MkTransfer 7 None None None None false None None false false false (Some (TBData [1; 2; 3])))) B)) as (bs & E & H & _);
      [vm_compute; reflexivity|]. rewrite app_nil_r in E. now rewrite E. }
  split; [exact E|]. exists [0xee; 0xee; 0xee; 0xee], [3; 0; 2; 1; 0xee; 0xee; 0xee; 0xee]. eexists. split; [|split; [exact E|reflexivity]].
  apply (WH 0 3 513 [0xee; 0xee; 0xee; 0xee]); [lia|cbn; lia|reflexivity].
Qed.
(** What belongs to no grammar: a fragment of a performative, and an unknown one. *)
Example C68_refused_example : forall G, frame_grammar G -> forall f, ~ G Debug f [0x00; 0x53; 0x14; 0xc0; 5; 1; 0x52; 7; 0xaa] /\ ~ G Debug f [0x00; 0x53; 0x19; 0x45].
Proof.
  intros G HG f.
  assert (K : forall bs, bytes_ok bs -> G Debug f bs -> frame_decode Debug bs = Ok ([], f)).
  { intros bs B H. apply (C68_frame G HG Debug bs [] f B). exists bs. rewrite app_nil_r. auto. }
  split; intros H; (apply K in H; [vm_compute in H; discriminate|repeat constructor; vm_compute; congruence]).
Qed.

(** A message is one or more sections; what comes back as the rest is the last section. *)
Theorem C68_message : forall G, grammar section_S G -> forall md inp r m, bytes_ok inp ->
  (message_decode md inp = Ok (r, m) <->
   exists secs parts, inp = concat parts /\ secs <> [] /\ Forall2 (G md) secs parts /\ r = last parts [] /\ m = message_of secs).
Proof. exact message_language. Qed.
Print Assumptions C68_message.
(** Two sections, one of them under its name. *)
Example C68_message_example : exists G, grammar section_S G /\
  let inp := [0x00; 0x53; 0x75; 0xa0; 1; 1; 0x00; 0xa3; 17] ++ s2b "amqp:amqp-value:*" ++ [0x41] in
  let r := [0x00; 0xa3; 17] ++ s2b "amqp:amqp-value:*" ++ [0x41] in
  let m := message_of [SEC_Data [1]; SEC_AmqpValue (VBoolean true)] in
  bytes_ok inp /\ message_decode Debug inp = Ok (r, m) /\
  exists secs parts, inp = concat parts /\ secs <> [] /\ Forall2 (G Debug) secs parts /\ r = last parts [] /\ m = message_of secs.
Proof.
  destruct (unions_have section_S section_alts un_section) as [G HG]. exists G. split; [exact HG|]. cbv zeta.
  assert (B : bytes_ok ([0x00; 0x53; 0x75; 0xa0; 1; 1; 0x00; 0xa3; 17] ++ s2b "amqp:amqp-value:*" ++ [0x41])) by (repeat constructor; vm_compute; congruence).
  assert (E : message_decode Debug ([0x00; 0x53; 0x75; 0xa0; 1; 1; 0x00; 0xa3; 17] ++ s2b "amqp:amqp-value:*" ++ [0x41]) =
    Ok ([0x00; 0xa3; 17] ++ s2b "amqp:amqp-value:*" ++ [0x41], message_of [SEC_Data [1]; SEC_AmqpValue (VBoolean true)])) by (vm_compute; reflexivity).
  split; [exact B|]. split; [exact E|]. exact (proj1 (C68_message G HG Debug _ _ _ B) E).
Qed.

(** Streams: the state and the events after any pieces of input, for any decoder of frames that always comes to an end. *)
Theorem C68_stream : forall T (D : mode -> bytes -> res (bytes * T)) md, (forall inp, D md inp <> Oof) ->
  forall chunks s evs, bytes_ok (concat chunks) -> zlen (concat chunks) < 2 ^ 63 ->
  (feed_all D md stream_new chunks = (s, evs) <-> stream_reading D md (concat chunks) s evs).
Proof. exact (@stream_language). Qed.
Print Assumptions C68_stream.
(** Both decoders of the crate do. *)
Theorem C68_total : forall md inp, amqp_frame_decode md inp <> Oof /\ sasl_frame_decode md inp <> Oof.
Proof. exact (fun md inp => conj (amqp_total md inp) (sasl_total md inp)). Qed.
Print Assumptions C68_total.
(** Frames [fs] and nothing else, nothing pending: just when the input is those frames one after the other. *)
Theorem C68_amqp_stream : forall G, frame_grammar G -> forall md chunks fs, bytes_ok (concat chunks) -> zlen (concat chunks) < 2 ^ 63 ->
  (feed_all amqp_frame_decode md stream_new chunks = (stream_new, map EvItem fs) <->
   exists bss, concat chunks = concat bss /\ Forall2 (on_stream (amqp_grammar G) md) fs bss).
Proof. exact amqp_stream_language. Qed.
Print Assumptions C68_amqp_stream.
Theorem C68_sasl_stream : forall G, grammar sasl_frame_body_S G -> forall md chunks fs, bytes_ok (concat chunks) -> zlen (concat chunks) < 2 ^ 63 ->
  (feed_all sasl_frame_decode md stream_new chunks = (stream_new, map EvItem fs) <->
   exists bss, concat chunks = concat bss /\ Forall2 (on_stream (sasl_grammar G) md) fs bss).
Proof. exact sasl_stream_language. Qed.
Print Assumptions C68_sasl_stream.
(** No bytes are two different sequences of frames. *)
Theorem C68_unambiguous : forall G, frame_grammar G -> forall md fs bss gs css, bytes_ok (concat bss) ->
  Forall2 (on_stream (amqp_grammar G) md) fs bss -> Forall2 (on_stream (amqp_grammar G) md) gs css -> concat bss = concat css ->
  fs = gs /\ bss = css.
Proof. exact amqp_unambiguous. Qed.
Print Assumptions C68_unambiguous.
Theorem C68_sasl_unambiguous : forall G, grammar sasl_frame_body_S G -> forall md fs bss gs css, bytes_ok (concat bss) ->
  Forall2 (on_stream (sasl_grammar G) md) fs bss -> Forall2 (on_stream (sasl_grammar G) md) gs css -> concat bss = concat css ->
  fs = gs /\ bss = css.
Proof. exact sasl_unambiguous. Qed.
Print Assumptions C68_sasl_unambiguous.
(** An empty frame, a [Close] with one unused byte in its list, and the beginning of a third frame, in two pieces. *)
Example C68_stream_example :
  let chunks := [[0; 0; 0; 8; 2; 0; 0; 0; 0; 0; 0; 15; 2; 0]; [0; 5; 0x00; 0x53; 0x18; 0xc0; 2; 0; 0xaa; 0; 0; 0; 9; 2; 0; 0; 0]] in
  let s := SLive (Frame 5) [2; 0; 0; 0] in
  let evs := [EvItem (MkAmqpFrame 0 FR_Empty); EvItem (MkAmqpFrame 5 (FR_Close (MkClose None)))] in
  bytes_ok (concat chunks) /\ zlen (concat chunks) < 2 ^ 63 /\ feed_all amqp_frame_decode Debug stream_new chunks = (s, evs) /\
  stream_reading amqp_frame_decode Debug (concat chunks) s evs.
Proof.
  cbv zeta. split; [repeat constructor; vm_compute; congruence|]. split; [vm_compute; reflexivity|]. split; [vm_compute; reflexivity|].
  apply (SR_frame _ _ (MkAmqpFrame 0 FR_Empty) [2; 0; 0; 0] [0; 0; 0; 8; 2; 0; 0; 0]);
    [split; reflexivity|vm_compute; congruence|vm_compute; reflexivity|].
  apply (SR_frame _ _ (MkAmqpFrame 5 (FR_Close (MkClose None))) [2; 0; 0; 5; 0x00; 0x53; 0x18; 0xc0; 2; 0; 0xaa]
    [0; 0; 0; 15; 2; 0; 0; 5; 0x00; 0x53; 0x18; 0xc0; 2; 0; 0xaa]);
    [split; reflexivity|vm_compute; congruence|vm_compute; reflexivity|].
  apply (SR_part _ _ 9 [2; 0; 0; 0]); vm_compute; [congruence|split; congruence].
Qed.
(** A SASL outcome in a frame with an extended header and bytes in the place of the channel. *)
Example C68_sasl_example : exists G, grammar sasl_frame_body_S G /\
  let chunk := [0; 0; 0; 21; 3; 1; 9; 9; 0xee; 0xee; 0xee; 0xee; 0x00; 0x53; 0x44; 0xc0; 4; 1; 0x50; 0; 0xaa] in
  let fs := [MkSaslFrame (SB_SaslOutcome (MkSaslOutcome SaslCode_Ok None))] in
  feed_all sasl_frame_decode Debug stream_new [chunk] = (stream_new, map EvItem fs) /\
  exists bss, concat [chunk] = concat bss /\ Forall2 (on_stream (sasl_grammar G) Debug) fs bss.
Proof.
  destruct (unions_have sasl_frame_body_S sasl_frame_body_alts un_sasl_frame_body) as [G HG]. exists G. split; [exact HG|]. cbv zeta.
  assert (E : feed_all sasl_frame_decode Debug stream_new [[0; 0; 0; 21; 3; 1; 9; 9; 0xee; 0xee; 0xee; 0xee; 0x00; 0x53; 0x44; 0xc0; 4; 1; 0x50; 0; 0xaa]] =
    (stream_new, map EvItem [MkSaslFrame (SB_SaslOutcome (MkSaslOutcome SaslCode_Ok None))])) by (vm_compute; reflexivity).
  split; [exact E|]. refine (proj1 (C68_sasl_stream G HG Debug _ _ _ _) E); [repeat constructor; vm_compute; congruence|vm_compute; reflexivity].
Qed.
