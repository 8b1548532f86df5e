(** Facts about one connection with several codecs. *)

From Coq Require Import String.
From Verif Require Import Connection BaseFacts Utf8Spec Valid Wire PrimFacts TypeSpec CompositeSpec AllTypes CodecSpec MessageSpec FrameSpec VariantFacts FrameFacts FramingFacts
  StreamSpec StreamFacts ConnectionSpec.
Open Scope list_scope.
Open Scope Z_scope.

(** ** One call *)
Lemma header_more src more src1 out : protocol_id_decode src = (src1, out) -> out <> PNone -> protocol_id_decode (src ++ more) = (src1 ++ more, out).
Proof.
  unfold protocol_id_decode. rewrite zlen_app. pose proof (zlen_nonneg more). unfold PROTOCOL_HEADER_LEN. destruct (Z.ltb_spec (zlen src) 8).
  - intros [= <- <-] N. now elim N.
  - intros E _. destruct (Z.ltb_spec (zlen src + zlen more) 8); [lia|]. rewrite ztake_app_le, zdrop_app_le by lia. injection E as <- <-. reflexivity.
Qed.
Lemma header_none src src1 : protocol_id_decode src = (src1, PNone) -> src1 = src.
Proof.
  unfold protocol_id_decode. destruct (zlen src <? PROTOCOL_HEADER_LEN); [now intros [= <-]|].
  repeat match goal with |- context [if ?c then _ else _] => destruct c end; discriminate.
Qed.
Lemma read_more md r src more r1 src1 out : read_item md r src = (r1, src1, out) -> out <> RNone -> read_item md r (src ++ more) = (r1, src1 ++ more, out).
Proof.
  destruct r as [|st|st]; cbn [read_item].
  - destruct (protocol_id_decode src) as [s o] eqn:E. intros [= <- <- <-] N. rewrite (header_more src more s o E); [reflexivity|]. intros ->. now elim N.
  - destruct (amqp_codec_decode sasl_frame_decode md st src) as [[st' s] o] eqn:E. intros [= <- <- <-] N.
    rewrite (decode_more _ _ _ _ more _ _ _ E); [reflexivity|]. intros ->. now elim N.
  - destruct (amqp_codec_decode amqp_frame_decode md st src) as [[st' s] o] eqn:E. intros [= <- <- <-] N.
    rewrite (decode_more _ _ _ _ more _ _ _ E); [reflexivity|]. intros ->. now elim N.
Qed.
Lemma of_none {T} (inj : T -> item) o : of_dout inj o = RNone -> o = DNone.
Proof. destruct o; try discriminate. reflexivity. Qed.
Lemma of_item {T} (inj : T -> item) o x : of_dout inj o = RItem x -> exists y, o = DItem y /\ x = inj y.
Proof. destruct o; try discriminate. intros [= <-]. eauto. Qed.
Lemma read_resume md r src r1 src1 more : read_item md r src = (r1, src1, RNone) -> read_item md r (src ++ more) = read_item md r1 (src1 ++ more).
Proof.
  destruct r as [|st|st]; cbn [read_item].
  - destruct (protocol_id_decode src) as [s [|p|e]] eqn:E; intros [= <- <-]. now apply header_none in E as ->.
  - destruct (amqp_codec_decode sasl_frame_decode md st src) as [[st' s] o] eqn:E. intros [= <- <- N]. apply of_none in N as ->. cbn [read_item].
    now rewrite (decode_resume _ _ _ _ _ _ more E).
  - destruct (amqp_codec_decode amqp_frame_decode md st src) as [[st' s] o] eqn:E. intros [= <- <- N]. apply of_none in N as ->. cbn [read_item].
    now rewrite (decode_resume _ _ _ _ _ _ more E).
Qed.
(** After an item the codec is as good as new. *)
Definition load (r : reader) : Z := match r with RSasl (Frame _) | RAmqp (Frame _) => 1 | _ => 0 end.
Lemma load_new k : load (reader_new k) = 0. Proof. now destruct k. Qed.
Lemma read_fresh md r src r1 src1 x : read_item md r src = (r1, src1, RItem x) -> r1 = reader_new (kind_of x) /\ zlen src1 < zlen src + load r.
Proof.
  destruct r as [|st|st]; cbn [read_item].
  - destruct (protocol_id_decode src) as [s [|p|e]] eqn:E; try discriminate. intros [= <- <- <-]. split; [reflexivity|]. apply protocol_only in E as ->.
    rewrite zlen_app. change (zlen (protocol_header p)) with 8. cbn [load]. lia.
  - destruct (amqp_codec_decode sasl_frame_decode md st src) as [[st' s] o] eqn:E. intros [= <- <- N]. apply of_item in N as (y & -> & ->).
    apply decode_item in E as [-> L]. split; [reflexivity|]. cbn [load]. destruct st; lia.
  - destruct (amqp_codec_decode amqp_frame_decode md st src) as [[st' s] o] eqn:E. intros [= <- <- N]. apply of_item in N as (y & -> & ->).
    apply decode_item in E as [-> L]. split; [reflexivity|]. cbn [load]. destruct st; lia.
Qed.
Lemma read_whole md x bs rest : item_bytes md x bs -> read_item md (reader_new (kind_of x)) (bs ++ rest) = (reader_new (kind_of x), rest, RItem x).
Proof.
  destruct x as [p|f|f]; cbn [item_bytes kind_of reader_new read_item].
  - intros ->. now rewrite protocol_accepts.
  - intros F. unfold amqp_codec_new. now rewrite (codec_item _ _ _ _ rest F).
  - intros F. unfold amqp_codec_new. now rewrite (codec_item _ _ _ _ rest F).
Qed.

Section Loop.
  Context {A : Type} (step : A -> item -> A * option kind).
  Notation serve := (serve step).
  Notation receive := (receive step).
  Notation receive_all := (receive_all step).
  Definition further (evs : list seen) (r : connection * list seen) : @connection A * list seen := let (c, s) := r in (c, evs ++ s).
  Lemma further_nil r : further [] r = r. Proof. now destruct r. Qed.
  Lemma further_further a b r : further a (further b r) = further (a ++ b) r.
  Proof. destruct r as [c s]. cbn [further]. now rewrite app_assoc. Qed.
  Definition next_reader (k : option kind) (r : reader) : reader := match k with Some k => reader_new k | None => r end.
  Lemma serve_S f md a r src : serve (S f) md a r src =
    match read_item md r src with
    | (r', src', RNone) => (CLive a r' src', [])
    | (r', src', RItem x) => further [SItem x] (serve f md (fst (step a x)) (next_reader (snd (step a x)) r') src')
    | (_, _, RFail e) => (CDead, [SFail e])
    end.
  Proof. cbn [Connection.serve]. destruct (read_item md r src) as [[r' src'] [|x|e]]; try reflexivity. destruct (step a x) as [a' k]. reflexivity. Qed.
  Lemma next_load k r md r0 src0 src x : read_item md r0 src0 = (r, src, RItem x) -> load (next_reader k r) = 0.
  Proof. intros E. apply read_fresh in E as [-> _]. destruct k; apply load_new. Qed.
  Lemma load_nonneg r : 0 <= load r <= 1. Proof. destruct r as [|[|]|[|]]; cbn; lia. Qed.
  Lemma serve_fuel f1 : forall f2 md a r src, zlen src + load r < Z.of_nat f1 -> zlen src + load r < Z.of_nat f2 -> serve f1 md a r src = serve f2 md a r src.
  Proof.
    induction f1 as [|f1 IH]; intros f2 md a r src H1 H2; pose proof (zlen_nonneg src); pose proof (load_nonneg r); [lia|].
    destruct f2 as [|f2]; [lia|]. rewrite !serve_S. destruct (read_item md r src) as [[r' src'] [|x|e]] eqn:E; try reflexivity. f_equal.
    pose proof (next_load (snd (step a x)) _ _ _ _ _ _ E) as N. apply read_fresh in E as [_ L]. apply IH; lia.
  Qed.
  Definition run md a r src := serve (2 + length src) md a r src.
  Lemma run_eq md a r src : run md a r src =
    match read_item md r src with
    | (r', src', RNone) => (CLive a r' src', [])
    | (r', src', RItem x) => further [SItem x] (run md (fst (step a x)) (next_reader (snd (step a x)) r') src')
    | (_, _, RFail e) => (CDead, [SFail e])
    end.
  Proof.
    unfold run. cbn [Nat.add]. rewrite serve_S. destruct (read_item md r src) as [[r' src'] [|x|e]] eqn:E; try reflexivity. f_equal.
    pose proof (next_load (snd (step a x)) _ _ _ _ _ _ E) as N. apply read_fresh in E as [_ L]. pose proof (load_nonneg r). unfold zlen in *. apply serve_fuel; unfold zlen; lia.
  Qed.
  Lemma run_ind md (P : A -> reader -> bytes -> Prop) :
    (forall a r src, (forall r1 src1 x, read_item md r src = (r1, src1, RItem x) -> P (fst (step a x)) (next_reader (snd (step a x)) r1) src1) -> P a r src) ->
    forall a r src, P a r src.
  Proof.
    intros H a r src. remember (Z.to_nat (zlen src + load r)) as n eqn:E. revert a r src E. induction n as [n IH] using lt_wf_ind. intros a r src ->.
    apply H. intros r1 src1 x R. eapply IH; [|reflexivity]. rewrite (next_load _ _ _ _ _ _ _ R). apply read_fresh in R as [_ L]. pose proof (zlen_nonneg src1). lia.
  Qed.
  Lemma run_app md a r src more : run md a r (src ++ more) =
    let (c, s) := run md a r src in further s match c with CLive a1 r1 src1 => run md a1 r1 (src1 ++ more) | CDead => (CDead, []) end.
  Proof.
    revert a r src. apply (run_ind md (fun a r src => run md a r (src ++ more) =
      let (c, s) := run md a r src in further s match c with CLive a1 r1 src1 => run md a1 r1 (src1 ++ more) | CDead => (CDead, []) end)).
    intros a r src IH. rewrite (run_eq md a r src). destruct (read_item md r src) as [[r1 src1] [|x|e]] eqn:E.
    - rewrite further_nil. rewrite (run_eq md a r (src ++ more)), (run_eq md a r1 (src1 ++ more)). now rewrite (read_resume _ _ _ _ _ more E).
    - rewrite run_eq, (read_more _ _ _ more _ _ _ E) by discriminate. rewrite (IH _ _ _ eq_refl).
      destruct (run md (fst (step a x)) (next_reader (snd (step a x)) r1) src1) as [c s]. cbn [further]. now rewrite further_further.
    - rewrite run_eq, (read_more _ _ _ more _ _ _ E) by discriminate. reflexivity.
  Qed.
  Lemma receive_live md a r src chunk : receive md (CLive a r src) chunk = run md a r (src ++ chunk). Proof. reflexivity. Qed.
  Lemma dead_forever md chunks : receive_all md CDead chunks = (CDead, []).
  Proof. induction chunks as [|c l IH]; [reflexivity|]. cbn [Connection.receive_all Connection.receive]. now rewrite IH. Qed.
  Lemma receive_all_pre md a k chunks : forall pre, let (c, s) := run md a (reader_new k) pre in
    further s (receive_all md c chunks) = run md a (reader_new k) (pre ++ concat chunks).
  Proof.
    induction chunks as [|chunk l IH]; intros pre.
    - cbn [concat Connection.receive_all]. rewrite app_nil_r. destruct (run md a (reader_new k) pre) as [c s]. cbn [further]. now rewrite app_nil_r.
    - cbn [concat Connection.receive_all]. rewrite app_assoc. specialize (IH (pre ++ chunk)). rewrite run_app in IH.
      destruct (run md a (reader_new k) pre) as [[a1 r1 src1|] s].
      + rewrite receive_live. destruct (run md a1 r1 (src1 ++ chunk)) as [c2 s2]. cbn [further] in IH. rewrite <- IH.
        destruct (receive_all md c2 l) as [c3 s3]. cbn [further]. now rewrite app_assoc.
      + cbn [Connection.receive]. cbn [further] in IH. rewrite dead_forever in *. rewrite <- IH. cbn [further]. now rewrite !app_nil_r.
  Qed.
  Lemma run_new md a k : run md a (reader_new k) [] = (connection_new a k, []).
  Proof. now destruct k. Qed.
  Lemma receive_concat md a k chunks : receive_all md (connection_new a k) chunks = receive md (connection_new a k) (concat chunks).
  Proof.
    pose proof (receive_all_pre md a k chunks []) as H. rewrite run_new, further_nil in H. exact H.
  Qed.
  Lemma run_items md a k xs a' k' bss rest : agrees step a k xs a' k' -> Forall2 (item_bytes md) xs bss ->
    run md a (reader_new k) (concat bss ++ rest) = further (map SItem xs) (run md a' (reader_new k') rest).
  Proof.
    intros H. revert bss. induction H as [a k|a k x xs a1 a' k' K S _ IH|a k x xs a1 k1 a' k' K S _ IH]; intros bss F; inversion F as [|? bs ? l W FF]; subst.
    - now rewrite further_nil.
    - cbn [concat map]. rewrite <- app_assoc, run_eq, (read_whole md x bs _ W), S. cbn [fst snd next_reader]. rewrite (IH l FF). now rewrite further_further.
    - cbn [concat map]. rewrite <- app_assoc, run_eq, (read_whole md x bs _ W), S. cbn [fst snd next_reader]. rewrite (IH l FF). now rewrite further_further.
  Qed.
  Lemma connection_received md a k xs a' k' bss chunks : agrees step a k xs a' k' -> Forall2 (item_bytes md) xs bss -> concat chunks = concat bss ->
    receive_all md (connection_new a k) chunks = (connection_new a' k', map SItem xs).
  Proof.
    intros H F C. rewrite receive_concat, C. unfold connection_new at 1. rewrite receive_live. cbn [app]. rewrite <- (app_nil_r (concat bss)), (run_items md _ _ _ _ _ _ [] H F), run_new.
    cbn [further]. now rewrite app_nil_r.
  Qed.
End Loop.

(** ** What was seen stands in the bytes *)
Lemma header_shape type bs r ch : decode_frame_header bs type = Ok (r, ch) -> exists doff rest, bs = doff :: type :: rest /\ 2 <= zlen rest.
Proof.
  unfold decode_frame_header, check_len. destruct (Z.ltb_spec (zlen bs) 4); [discriminate|]. cbn [bind]. destruct bs as [|doff [|t rest]]; try discriminate.
  destruct (Z.eqb_spec t type) as [->|]; [|discriminate]. intros _. exists doff, rest. split; [reflexivity|]. rewrite !zlen_cons in *. lia.
Qed.
Lemma sasl_shape md body r f : sasl_frame_decode md body = Ok (r, f) -> exists doff rest, body = doff :: 1 :: rest /\ 2 <= zlen rest.
Proof.
  unfold sasl_frame_decode. destruct (decode_frame_header body FRAME_TYPE_SASL) as [[i c]|e|p|] eqn:E; try discriminate. intros _. now apply header_shape in E.
Qed.
Lemma amqp_shape md body r f : amqp_frame_decode md body = Ok (r, f) -> exists doff rest, body = doff :: 0 :: rest /\ 2 <= zlen rest.
Proof.
  unfold amqp_frame_decode. destruct (decode_frame_header body FRAME_TYPE_AMQP) as [[i c]|e|p|] eqn:E; try discriminate. intros _. now apply header_shape in E.
Qed.
Lemma read_only md k src r1 src1 x : bytes_ok src -> zlen src < 2 ^ 63 -> read_item md (reader_new k) src = (r1, src1, RItem x) ->
  k = kind_of x /\ exists bs, src = bs ++ src1 /\ item_bytes md x bs.
Proof.
  intros B L. destruct k; cbn [reader_new read_item].
  - destruct (protocol_id_decode src) as [s [|p|e]] eqn:E; try discriminate. intros [= <- <- <-]. split; [reflexivity|]. apply protocol_only in E. eexists. split; [exact E|reflexivity].
  - destruct (amqp_codec_decode sasl_frame_decode md amqp_codec_new src) as [[st' s] o] eqn:E. intros [= <- <- N]. apply of_item in N as (y & -> & ->).
    apply item_takes in E as (_ & body & bs & F & -> & D); [|assumption|assumption]. split; [reflexivity|]. exists bs. split; [reflexivity|]. exists body. split; [exact F|]. split; [|exact D].
    apply sasl_shape in D as (doff & rest & -> & K). rewrite !zlen_cons. lia.
  - destruct (amqp_codec_decode amqp_frame_decode md amqp_codec_new src) as [[st' s] o] eqn:E. intros [= <- <- N]. apply of_item in N as (y & -> & ->).
    apply item_takes in E as (_ & body & bs & F & -> & D); [|assumption|assumption]. split; [reflexivity|]. exists bs. split; [reflexivity|]. exists body. split; [exact F|]. split; [|exact D].
    apply amqp_shape in D as (doff & rest & -> & K). rewrite !zlen_cons. lia.
Qed.

Section Only.
  Context {A : Type} (step : A -> item -> A * option kind).
  Lemma run_only md a k src : bytes_ok src -> zlen src < 2 ^ 63 -> exists xs bss a' k' tail, src = concat bss ++ tail /\ Forall2 (item_bytes md) xs bss /\ agrees step a k xs a' k' /\
    ((exists r rest, read_item md (reader_new k') tail = (r, rest, RNone) /\ run step md a (reader_new k) src = (CLive a' r rest, map SItem xs)) \/
     (exists r rest e, read_item md (reader_new k') tail = (r, rest, RFail e) /\ run step md a (reader_new k) src = (CDead, map SItem xs ++ [SFail e]))).
  Proof.
    remember (reader_new k) as r eqn:R. revert a r src k R. intros a r src. pattern a, r, src. apply (run_ind step md). clear a r src.
    intros a r src IH k -> B L. rewrite run_eq. destruct (read_item md (reader_new k) src) as [[r1 src1] [|x|e]] eqn:E.
    - exists [], [], a, k, src. split; [reflexivity|]. split; [constructor|]. split; [constructor|]. left. exists r1, src1. now split.
    - destruct (read_only _ _ _ _ _ _ B L E) as (-> & bs & -> & W). pose proof (read_fresh _ _ _ _ _ _ E) as [-> _]. specialize (IH _ _ _ eq_refl).
      apply bytes_ok_app in B as [B1 B]. rewrite zlen_app in L. pose proof (zlen_nonneg bs). destruct (step a x) as [a1 [k1|]] eqn:S; cbn [fst snd next_reader] in *.
      + destruct (IH k1 eq_refl B ltac:(lia)) as (xs & bss & a' & k' & tail & -> & F & G & C). exists (x :: xs), (bs :: bss), a', k', tail. cbn [concat map].
        split; [now rewrite app_assoc|]. split; [now constructor|]. split; [eapply agrees_switch; eauto|].
        destruct C as [(r & rest & C & D)|(r & rest & e & C & D)]; [left; exists r, rest|right; exists r, rest, e]; (split; [exact C|]); rewrite D; reflexivity.
      + destruct (IH (kind_of x) eq_refl B ltac:(lia)) as (xs & bss & a' & k' & tail & -> & F & G & C). exists (x :: xs), (bs :: bss), a', k', tail. cbn [concat map].
        split; [now rewrite app_assoc|]. split; [now constructor|]. split; [eapply agrees_keep; eauto|].
        destruct C as [(r & rest & C & D)|(r & rest & e & C & D)]; [left; exists r, rest|right; exists r, rest, e]; (split; [exact C|]); rewrite D; reflexivity.
    - exists [], [], a, k, src. split; [reflexivity|]. split; [constructor|]. split; [constructor|]. right. exists r1, src1, e. now split.
  Qed.
End Only.

(** ** The wrong codec *)
Lemma frame_fresh_none {T} (D : mode -> bytes -> res (bytes * T)) md n rest : 8 <= n < 2 ^ 32 -> 4 <= zlen rest -> 4 + zlen rest < n ->
  amqp_codec_decode D md FrameHeader (be4 n ++ rest) = (Frame (n - 4), rest, DNone).
Proof.
  intros N L M. rewrite header_state, zlen_app, ztake_app, zdrop_app by reflexivity. change (zlen (be4 n)) with 4. rewrite be_val_be4 by lia.
  destruct (Z.ltb_spec (4 + zlen rest) 8); [lia|]. rewrite usub_length by lia. destruct (Z.ltb_spec n 4); [lia|]. destruct (Z.ltb_spec (4 + zlen rest) n); [reflexivity|lia].
Qed.
Lemma header_waits {A} (step : A -> item -> A * option kind) md a k p rest chunks : k <> KHeader -> 8 + zlen rest < AMQP_length -> concat chunks = protocol_header p ++ rest ->
  exists r src, receive_all step md (connection_new a k) chunks = (CLive a r src, []).
Proof.
  intros K L C. rewrite receive_concat, C. unfold connection_new. rewrite receive_live, run_eq. cbn [app].
  change (protocol_header p) with (be4 AMQP_length ++ [protocol_number p; 1; 0; 0]). rewrite <- app_assoc. pose proof (zlen_nonneg rest).
  assert (Z : zlen ([protocol_number p; 1; 0; 0] ++ rest) = 4 + zlen rest) by (rewrite zlen_app; reflexivity).
  destruct k; [easy| |]; cbn [reader_new read_item]; unfold amqp_codec_new; rewrite frame_fresh_none by (rewrite ?Z; unfold AMQP_length in *; lia); do 2 eexists; reflexivity.
Qed.
Lemma be4_inj a b : 0 <= a < 2 ^ 32 -> 0 <= b < 2 ^ 32 -> be4 a = be4 b -> a = b.
Proof. intros A B E. apply (f_equal be_val) in E. now rewrite !be_val_be4 in E by assumption. Qed.
Lemma frame_refused {A} (step : A -> item -> A * option kind) md a body bs rest chunks : framed body bs -> 4 + zlen body <> AMQP_length -> 8 <= zlen (bs ++ rest) ->
  concat chunks = bs ++ rest -> receive_all step md (connection_new a KHeader) chunks = (CDead, [SFail (FHeader PIInvalidHeader)]).
Proof.
  intros [-> L] N G C. rewrite receive_concat, C. unfold connection_new. rewrite receive_live, run_eq. cbn [app reader_new read_item]. pose proof (zlen_nonneg body).
  rewrite <- app_assoc in *. unfold protocol_id_decode, PROTOCOL_HEADER_LEN. destruct (Z.ltb_spec (zlen (be4 (4 + zlen body) ++ body ++ rest)) 8); [lia|].
  replace (ztake 4 (ztake 8 (be4 (4 + zlen body) ++ body ++ rest))) with (be4 (4 + zlen body)).
  - destruct (bytes_eqb (be4 (4 + zlen body)) PROTOCOL_HEADER_PREFIX) eqn:E; [|reflexivity]. apply bytes_eqb_eq in E. exfalso. apply N. apply be4_inj; [lia|unfold AMQP_length; lia|exact E].
  - unfold ztake. rewrite firstn_firstn. reflexivity.
Qed.
Lemma sasl_refuses {A} (step : A -> item -> A * option kind) md a f bs rest chunks : frame_of amqp_frame_decode md f bs -> concat chunks = bs ++ rest ->
  receive_all step md (connection_new a KSasl) chunks = (CDead, [SFail (FFrame (CParse (EUnexpectedFrameType 0)))]).
Proof.
  intros (body & F & L & D) C. rewrite receive_concat, C. unfold connection_new. rewrite receive_live, run_eq. cbn [app reader_new read_item]. unfold amqp_codec_new.
  destruct (framed_head body bs rest F) as (_ & _ & _ & Z). pose proof (zlen_nonneg rest). rewrite (codec_frame _ md body bs rest F) by lia. rewrite arm_body.
  apply amqp_shape in D as (doff & tl & -> & K). rewrite (sasl_header_error md _ (EUnexpectedFrameType 0)); [reflexivity|]. now apply header_wrong_type.
Qed.
Lemma amqp_refuses {A} (step : A -> item -> A * option kind) md a f bs rest chunks : frame_of sasl_frame_decode md f bs -> concat chunks = bs ++ rest ->
  receive_all step md (connection_new a KAmqp) chunks = (CDead, [SFail (FFrame (CParse (EUnexpectedFrameType 1)))]).
Proof.
  intros (body & F & L & D) C. rewrite receive_concat, C. unfold connection_new. rewrite receive_live, run_eq. cbn [app reader_new read_item]. unfold amqp_codec_new.
  destruct (framed_head body bs rest F) as (_ & _ & _ & Z). pose proof (zlen_nonneg rest). rewrite (codec_frame _ md body bs rest F) by lia. rewrite arm_body.
  apply sasl_shape in D as (doff & tl & -> & K). rewrite (amqp_header_error md _ (EUnexpectedFrameType 1)); [reflexivity|]. now apply header_wrong_type.
Qed.

(** ** Sending *)
Definition sent_bytes (x : item) : bytes :=
  match x with IHeader p => protocol_header p | ISasl f => wbytes (sasl_frame_enc f) | IAmqp f => wbytes (amqp_frame_enc f) end.
Lemma item_sent slack x b : 0 <= slack -> buf_ok b -> item_sendable x -> exists b', send_item slack x b = Some b' /\ b_data b' = b_data b ++ sent_bytes x /\ buf_ok b'.
Proof.
  intros S B. destruct x as [p|[y]|[ch f]]; cbn [item_sendable send_item sent_bytes].
  - intros _. now apply protocol_sent.
  - intros (V & _). now apply sasl_encode_room.
  - intros (_ & V & M & _). now apply amqp_encode_room.
Qed.
Lemma items_sent items : forall b, Forall (fun i => 0 <= fst i /\ item_sendable (snd i)) items -> buf_ok b ->
  exists b', send_items items b = Some b' /\ b_data b' = b_data b ++ concat (map (fun i => sent_bytes (snd i)) items) /\ buf_ok b'.
Proof.
  induction items as [|[slack x] l IH]; intros b F B.
  - exists b. cbn [send_items map concat]. now rewrite app_nil_r.
  - inversion F as [|? ? [S X] FF]; subst. cbn [fst snd] in *. destruct (item_sent slack x b S B X) as (b1 & E1 & D1 & B1). destruct (IH b1 FF B1) as (b2 & E2 & D2 & B2).
    exists b2. cbn [send_items map concat snd]. rewrite E1. split; [exact E2|]. split; [|exact B2]. now rewrite D2, D1, app_assoc.
Qed.
Lemma item_stands md x : item_sendable x -> item_bytes md (item_received x) (sent_bytes x).
Proof.
  destruct x as [p|f|f]; cbn [item_sendable item_received item_bytes sent_bytes].
  - reflexivity.
  - intros H. now apply sasl_frame_of.
  - intros H. now apply amqp_frame_of.
Qed.
Lemma conversation {A} (step : A -> item -> A * option kind) md items a k a' k' b : Forall (fun i => 0 <= fst i /\ item_sendable (snd i)) items -> buf_ok b -> b_data b = [] ->
  agrees step a k (map (fun i => item_received (snd i)) items) a' k' ->
  exists b', send_items items b = Some b' /\ forall chunks, concat chunks = b_data b' ->
    receive_all step md (connection_new a k) chunks = (connection_new a' k', map (fun i => SItem (item_received (snd i))) items).
Proof.
  intros F B N G. destruct (items_sent items b F B) as (b' & E & D & _). exists b'. split; [exact E|]. rewrite N in D. intros chunks C. rewrite <- map_map.
  apply (connection_received step md a k _ a' k' (map (fun i => sent_bytes (snd i)) items)); [exact G| |now rewrite C, D].
  apply Forall2_maps. intros i I. apply item_stands. rewrite Forall_forall in F. now apply F.
Qed.

(** ** Fuel, exchange *)
Lemma dec_no_oof {T} (D : mode -> bytes -> res (bytes * T)) md st src st1 src1 : (forall inp, D md inp <> Oof) -> amqp_codec_decode D md st src <> (st1, src1, DOof).
Proof.
  intros H. assert (A : forall n src s1 s2, decode_frame_arm D md n src <> (s1, s2, DOof)).
  { intros n s s1 s2. unfold decode_frame_arm. destruct (_ <? _); [discriminate|]. specialize (H (ztake n s)).
    destruct (D md (ztake n s)) as [[[|? ?] x]|e|p|]; try discriminate. now elim H. }
  destruct st as [|n]; [|apply A]. rewrite header_state. destruct (_ <? _); [discriminate|]. destruct (usub _ _ _ _); try discriminate. destruct (_ <? _); [discriminate|apply A].
Qed.
Lemma read_no_oof md r src r1 src1 : read_item md r src <> (r1, src1, RFail FOof).
Proof.
  destruct r as [|st|st]; cbn [read_item].
  - destruct (protocol_id_decode src) as [s [|p|e]]; discriminate.
  - destruct (amqp_codec_decode sasl_frame_decode md st src) as [[st' s] [| | | |]] eqn:E; try discriminate. now apply dec_no_oof in E; [|intros; apply sasl_total].
  - destruct (amqp_codec_decode amqp_frame_decode md st src) as [[st' s] [| | | |]] eqn:E; try discriminate. now apply dec_no_oof in E; [|intros; apply amqp_total].
Qed.
Lemma connection_no_oof {A} (step : A -> item -> A * option kind) md a k chunks : ~ In (SFail FOof) (snd (receive_all step md (connection_new a k) chunks)).
Proof.
  rewrite receive_concat. unfold connection_new. rewrite receive_live. cbn [app]. generalize a (reader_new k) (concat chunks). clear a k chunks.
  intros a r src. pattern a, r, src. apply (run_ind step md). clear a r src. intros a r src IH. rewrite run_eq. destruct (read_item md r src) as [[r1 src1] [|x|e]] eqn:E.
  - intros [].
  - specialize (IH _ _ _ eq_refl). destruct (run step md _ _ src1) as [c s]. cbn [further snd app] in *. intros [K|K]; [discriminate|now apply IH].
  - intros [K|[]]. injection K as ->. now apply read_no_oof in E.
Qed.
Lemma connection_only {A} (step : A -> item -> A * option kind) md a k chunks : bytes_ok (concat chunks) -> zlen (concat chunks) < 2 ^ 63 ->
  exists xs bss a' k' tail, concat chunks = concat bss ++ tail /\ Forall2 (item_bytes md) xs bss /\ agrees step a k xs a' k' /\
    ((exists r rest, read_item md (reader_new k') tail = (r, rest, RNone) /\ receive_all step md (connection_new a k) chunks = (CLive a' r rest, map SItem xs)) \/
     (exists r rest e, read_item md (reader_new k') tail = (r, rest, RFail e) /\ receive_all step md (connection_new a k) chunks = (CDead, map SItem xs ++ [SFail e]))).
Proof. intros B L. rewrite receive_concat. apply (run_only step md a k (concat chunks) B L). Qed.
Lemma two_chunkings {A} (step : A -> item -> A * option kind) md a k one other : concat one = concat other ->
  receive_all step md (connection_new a k) one = receive_all step md (connection_new a k) other.
Proof. intros E. now rewrite !receive_concat, E. Qed.
Lemma as_new md r src r1 src1 x : read_item md r src = (r1, src1, RItem x) -> r1 = reader_new (kind_of x).
Proof. intros E. now apply read_fresh in E. Qed.
Lemma handshake_agrees server frames auth outcome : Forall (fun x => exists f, x = IAmqp f) frames -> Forall (fun x => exists f, x = ISasl f /\ forall o, sf_body f <> SB_SaslOutcome o) auth ->
  agrees handshake Greeting KHeader
    (IHeader PAmqpSasl :: auth ++ ISasl (MkSaslFrame (SB_SaslOutcome outcome)) :: IHeader server :: frames) Running KAmqp.
Proof.
  intros F G. eapply agrees_switch; [reflexivity|reflexivity|]. induction G as [|x l ([b] & -> & N) _ IH].
  - eapply agrees_switch; [reflexivity|reflexivity|]. eapply agrees_switch; [reflexivity|reflexivity|]. clear - F. induction F as [|x l [f ->] _ IH]; [constructor|].
    eapply agrees_keep; [reflexivity|reflexivity|exact IH].
  - cbn [app]. eapply agrees_keep; [reflexivity| |exact IH]. cbn [sf_body] in N. destruct b; try reflexivity. now elim (N v).
Qed.

Lemma connection_complete {A} (step : A -> item -> A * option kind) md a k chunks : bytes_ok (concat chunks) -> zlen (concat chunks) < 2 ^ 63 ->
  exists xs bss a' k' tail, concat chunks = concat bss ++ tail /\ Forall2 (item_bytes md) xs bss /\ agrees step a k xs a' k' /\
    (((forall x bs rest, kind_of x = k' -> item_bytes md x bs -> tail <> bs ++ rest) /\
      exists r rest, receive_all step md (connection_new a k) chunks = (CLive a' r rest, map SItem xs)) \/
     ((forall x bs rest more, kind_of x = k' -> item_bytes md x bs -> tail ++ more <> bs ++ rest) /\
      exists e, receive_all step md (connection_new a k) chunks = (CDead, map SItem xs ++ [SFail e]))).
Proof.
  intros B L. destruct (connection_only step md a k chunks B L) as (xs & bss & s & k' & tail & E & F & G & R). exists xs, bss, s, k', tail.
  split; [exact E|]. split; [exact F|]. split; [exact G|]. destruct R as [(r & rest & W & R)|(r & rest & e & W & R)].
  - left. split; [|now exists r, rest]. intros x b rest0 <- H ->. pose proof (read_whole md x b rest0 H). congruence.
  - right. split; [|now exists e]. intros x b rest0 more <- H X. apply (read_more _ _ _ more) in W; [|discriminate]. rewrite X in W.
    pose proof (read_whole md x b rest0 H). congruence.
Qed.
