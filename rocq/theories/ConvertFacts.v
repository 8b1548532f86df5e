(** Proofs about conversions. *)

From Coq Require Import String.
From Verif Require Import Io Convert Utf8Spec Valid Wire TypeSpec CompositeSpec AllTypes CodecSpec FrameSpec StreamSpec ConvertSpec
  BaseFacts PrimFacts Utf8Facts VariantFacts TypeFacts AllTypesFacts EqFacts CodecFacts FramingFacts FrameFacts ErrorFacts SmallFacts ExactFacts.
Open Scope string_scope.
Open Scope list_scope.
Open Scope Z_scope.

Lemma conversion_sent X Y (A : way X) (B : way Y) f : conversion A B f -> forall x, w_size B (f x) = w_size A x /\ w_bytes B (f x) = w_bytes A x.
Proof. intros [] x; split; reflexivity. Qed.

Lemma read_both {X Y} (dx : dec X) (dy : dec Y) (f : X -> Y) :
  (forall md i fmt rest x, dy md i fmt = Ok (rest, f x) <-> dx md i fmt = Ok (rest, x)) ->
  forall md inp rest x, decode dy md inp = Ok (rest, f x) <-> decode dx md inp = Ok (rest, x).
Proof. intros H md [|fmt i] rest x; [split; intros E; discriminate E|]. rewrite !decode_cons. apply H. Qed.

(** A type read by format code: the codes of one part are read as that part, and nothing else is. *)
Lemma code_read {X Y} (S : tspec X) (dy : dec Y) (f : X -> Y) : good S -> (forall x y, f x = f y -> x = y) ->
  (forall md i fmt, In fmt (s_codes S) -> dy md i fmt = map_res f (s_dec S md i fmt)) ->
  (forall md i fmt rest x, ~ In fmt (s_codes S) -> dy md i fmt <> Ok (rest, f x)) ->
  forall md inp rest x, decode dy md inp = Ok (rest, f x) <-> decode (s_dec S) md inp = Ok (rest, x).
Proof.
  intros G I Y1 N1. apply read_both. intros md i fmt rest x. destruct (in_dec Z.eq_dec fmt (s_codes S)) as [H|H].
  - rewrite (Y1 md i fmt H). unfold map_res. destruct (s_dec S md i fmt) as [[r y]|e|p|]; cbn [bind]; try (split; discriminate).
    split; intros E; injection E; intros E1 E2; [apply I in E1|]; subst; reflexivity.
  - rewrite (g_reject S G md i fmt H). split; [|discriminate]. intros E. exfalso. exact (N1 md i fmt rest x H E).
Qed.

Ltac other E := try discriminate E;
  repeat match type of E with
  | map_res _ ?r = _ => destruct r as [[? ?]| | |]; cbn [map_res bind] in E; try discriminate E
  | bind ?r _ = _ => destruct r as [[? ?]| | |]; cbn [bind] in E; try discriminate E
  end.
Ltac variant_reads := apply code_read; [|intros x y E; injection E; auto|
  intros md i fmt H; cbn in H; rewrite variant_dec_unfold; repeat (destruct H as [<-|H]; [try reflexivity|]); try (destruct H)|
  intros md i fmt rest x H E; rewrite variant_dec_unfold in E; unfold variant_body in E;
  repeat match type of E with
  | (if ?f =? ?c then _ else _) = _ => destruct (Z.eqb_spec f c) as [->|]; [solve [exfalso; apply H; find_in|exfalso; other E]|]
  end; discriminate E].
Ltac take r := destruct r as [[? ?]| | |]; cbn [bind]; try reflexivity.
Lemma text_reads md i fmt : str_dec md i fmt = map_res str_from_bytestr (bstr_dec md i fmt).
Proof.
  unfold str_dec, bstr_dec, map_res. destruct (fmt =? FC_STRING8); [|destruct (fmt =? FC_STRING32); [|reflexivity]].
  - take (read_bytes_u8 i). now destruct (from_utf8 _).
  - take (read_bytes_u32 i). now destruct (from_utf8 _).
Qed.
Lemma text_variant (r : res (bytes * bytes)) : map_res variant_from_str (map_res str_from_bytestr r) = map_res variant_from_bytestr r.
Proof. unfold map_res. now take r. Qed.

Lemma map_good : good (map_S variant_key variant_S variant_S).
Proof. apply type_good. apply ty_map; apply ty_variant. Qed.
Ltac one_type := first [exact map_good|apply type_good; constructor].

Ltac id_reads := apply code_read; [one_type|intros x y E; injection E; auto|
  intros md i fmt H; cbn in H; repeat (destruct H as [<-|H]; [try reflexivity|]); try (destruct H)|
  intros md i fmt rest x H E; unfold message_id_dec in E;
  repeat match type of E with
  | (if ?b then _ else _) = _ => let Q := fresh in destruct b eqn:Q;
     [rewrite ?orb_true_iff, ?Z.eqb_eq in Q; repeat (destruct Q as [Q|Q]); subst fmt; solve [exfalso; apply H; find_in|exfalso; other E]|]
  end; discriminate E].

(** The four kinds of error have different names. *)
Lemma sym_is_eq s t : sym_is s t = true -> str_bytes s = s2b t.
Proof. apply bytes_eqb_eq. Qed.
Ltac names_of s := repeat match goal with |- context [if sym_is s ?t then _ else _] => 
  let Q := fresh in destruct (sym_is s t) eqn:Q; [apply sym_is_eq in Q; rename Q into W|] end.
Lemma not_amqp s : (forall r, connection_error_try_from s <> Ok r) /\ (forall r, session_error_try_from s <> Ok r) /\ (forall r, link_error_try_from s <> Ok r)
  \/ forall r, amqp_error_try_from s <> Ok r.
Proof.
  unfold amqp_error_try_from. names_of s; try (right; discriminate); left;
  unfold connection_error_try_from, session_error_try_from, link_error_try_from, sym_is; rewrite !W; repeat split; intros r; vm_compute; discriminate.
Qed.
Lemma not_connection s : (forall r, session_error_try_from s <> Ok r) /\ (forall r, link_error_try_from s <> Ok r) \/ forall r, connection_error_try_from s <> Ok r.
Proof.
  unfold connection_error_try_from. names_of s; try (right; discriminate); left;
  unfold session_error_try_from, link_error_try_from, sym_is; rewrite !W; repeat split; intros r; vm_compute; discriminate.
Qed.
Lemma not_session s : (forall r, link_error_try_from s <> Ok r) \/ forall r, session_error_try_from s <> Ok r.
Proof.
  unfold session_error_try_from. names_of s; try (right; discriminate); left;
  unfold link_error_try_from, sym_is; rewrite !W; repeat split; intros r; vm_compute; discriminate.
Qed.
Lemma condition_reads {X} (try : symbol -> res X) (f : X -> error_condition) (dx : dec X) : dx = enum_dec symbol_dec try ->
  (forall s x, error_condition_of_symbol s = f x <-> try s = Ok x) ->
  forall md inp rest x, decode error_condition_dec md inp = Ok (rest, f x) <-> decode dx md inp = Ok (rest, x).
Proof.
  intros -> K. apply read_both. intros md i fmt rest x. unfold error_condition_dec, enum_dec.
  destruct (symbol_dec md i fmt) as [[i1 s]| | |]; cbn [bind]; try (split; discriminate).
  specialize (K s x). split.
  - intros E. injection E as <- E. apply K in E. now rewrite E.
  - destruct (try s) as [y| | |] eqn:T; cbn [bind]; try discriminate. intros E. injection E as <- <-. f_equal. f_equal. now apply K.
Qed.
Ltac kinds s := destruct (not_amqp s) as [(N1 & N2 & N3)|N1]; destruct (not_connection s) as [(N4 & N5)|N4]; destruct (not_session s) as [N6|N6];
  unfold error_condition_of_symbol;
  destruct (amqp_error_try_from s) eqn:E1; destruct (connection_error_try_from s) eqn:E2; destruct (session_error_try_from s) eqn:E3; destruct (link_error_try_from s) eqn:E4;
  try (exfalso; congruence).
Lemma amqp_kind s x : error_condition_of_symbol s = EC_AmqpError x <-> amqp_error_try_from s = Ok x.
Proof. kinds s; split; congruence. Qed.
Lemma connection_kind s x : error_condition_of_symbol s = EC_ConnectionError x <-> connection_error_try_from s = Ok x.
Proof. kinds s; split; congruence. Qed.
Lemma session_kind s x : error_condition_of_symbol s = EC_SessionError x <-> session_error_try_from s = Ok x.
Proof. kinds s; split; congruence. Qed.
Lemma link_kind s x : error_condition_of_symbol s = EC_LinkError x <-> link_error_try_from s = Ok x.
Proof. kinds s; split; congruence. Qed.

(** A frame and its part. *)
Lemma frame_reads {X} code name (inner : mode -> bytes -> res (bytes * X)) (f : X -> frame) : (forall x y, f x = f y -> x = y) ->
  (forall md d i, match d with DUlong c => c =? code | DSymbol a => sym_is a name end = true -> frame_select md d i = map_res f (inner md i)) ->
  (forall md d i rest x, match d with DUlong c => c =? code | DSymbol a => sym_is a name end = false -> frame_select md d i <> Ok (rest, f x)) ->
  (forall x, f x <> FR_Empty) ->
  forall md inp rest x, frame_decode md inp = Ok (rest, f x) <-> decode (composite_dec code name inner) md inp = Ok (rest, x).
Proof.
  intros I Y1 N1 NE md inp rest x. destruct inp as [|c inp]; [split; [intros E; injection E; intros E1; now destruct (NE x)|discriminate]|].
  rewrite decode_cons, frame_decode_cons. unfold composite_dec, frame_dec.
  destruct (validate_code c FC_DESCRIBED); cbn [bind]; try now split.
  destruct (decode descriptor_dec md inp) as [[i d]| | |]; cbn [bind]; try now split.
  rewrite <- frame_select_eq. specialize (Y1 md d i). specialize (N1 md d i rest x).
  unfold sym_is in *. destruct (match d with DUlong _ => _ | DSymbol _ => _ end).
  - rewrite (Y1 eq_refl). unfold map_res. destruct (inner md i) as [[i' y]| | |]; cbn [bind]; try (split; discriminate).
    split; intros E; injection E; intros E1 E2; [apply I in E1|]; subst; reflexivity.
  - split; [|discriminate]. intros E. now destruct (N1 eq_refl).
Qed.
Lemma not_frame {T X} (g : T -> frame) (f : X -> frame) (r : res (bytes * T)) rest x : (forall y, g y <> f x) -> map_res g r <> Ok (rest, f x).
Proof. destruct r as [[i y]| | |]; intros N E; try discriminate. injection E; intros E1 _. exact (N y E1). Qed.
Ltac frame_part := apply frame_reads; [intros x y E; injection E; auto|
  intros md [n|a] i E; cbn [frame_select]; [apply Z.eqb_eq in E; now subst|apply sym_is_eq in E; unfold sym_is; now rewrite !E]|
  intros md [n|a] i rest x E; cbn [frame_select]; rewrite ?E;
    repeat match goal with |- context [if ?b then _ else _] => destruct b end; try discriminate;
    solve [apply not_frame; intros; discriminate]|
  discriminate].

Lemma conversion_read X Y (A : way X) (B : way Y) f : conversion A B f -> forall md inp rest x, w_read B md inp = Ok (rest, f x) <-> w_read A md inp = Ok (rest, x).
Proof.
  intros []; unfold spec_way, way_of, frame_way; cbn [w_read s_codec c_D variant_S];
  try solve [frame_part].
  all: try solve [change (c_D (s_codec variant_S)) with variant_dec; variant_reads; one_type].
  - change (c_D variant_C) with variant_dec. variant_reads; [one_type|..]; cbn [s_dec str_S]; change (c_D str_C) with str_dec; rewrite text_reads, text_variant; reflexivity.
  - apply read_both. intros md i fmt rest x. change (c_D (s_codec str_S)) with str_dec. change (c_D (s_codec bstr_S)) with bstr_dec. rewrite text_reads. unfold map_res.
    destruct (bstr_dec md i fmt) as [[r y]| | |]; cbn [bind]; split; try discriminate; intros E; injection E; intros; subst; reflexivity.
  - change (c_D (s_codec message_id_S)) with message_id_dec. id_reads.
  - change (c_D (s_codec message_id_S)) with message_id_dec. id_reads.
  - change (c_D (s_codec message_id_S)) with message_id_dec. id_reads.
  - change (c_D (s_codec message_id_S)) with message_id_dec. id_reads.
  - apply (condition_reads amqp_error_try_from EC_AmqpError); [reflexivity|exact amqp_kind].
  - apply (condition_reads connection_error_try_from EC_ConnectionError); [reflexivity|exact connection_kind].
  - apply (condition_reads session_error_try_from EC_SessionError); [reflexivity|exact session_kind].
  - apply (condition_reads link_error_try_from EC_LinkError); [reflexivity|exact link_kind].
Qed.

(** ** SASL frames *)
Lemma sasl_sent X (A : way X) f : sasl_conversion A f -> forall x, sasl_frame_size (f x) = 8 + w_size A x /\
  wbytes (sasl_frame_enc (f x)) = be4 (8 + w_size A x) ++ 2 :: 1 :: 0 :: 0 :: w_bytes A x.
Proof. intros [] x; (split; [reflexivity|]); (etransitivity; [exact (sasl_layout _)|reflexivity]). Qed.
Lemma sasl_body_reads {X} code name (inner : mode -> bytes -> res (bytes * X)) (f : X -> sasl_frame_body) : (forall x y, f x = f y -> x = y) ->
  (forall md d i, match d with DUlong c => c =? code | DSymbol a => sym_is a name end = true -> sasl_frame_body_select md d i = map_res f (inner md i)) ->
  (forall md d i rest x, match d with DUlong c => c =? code | DSymbol a => sym_is a name end = false -> sasl_frame_body_select md d i <> Ok (rest, f x)) ->
  forall md inp rest x, decode sasl_frame_body_dec md inp = Ok (rest, f x) <-> decode (composite_dec code name inner) md inp = Ok (rest, x).
Proof.
  intros I Y1 N1. apply read_both. intros md i fmt rest x. unfold composite_dec, sasl_frame_body_dec.
  destruct (validate_code fmt FC_DESCRIBED); cbn [bind]; try now split.
  destruct (decode descriptor_dec md i) as [[j d]| | |]; cbn [bind]; try now split.
  specialize (Y1 md d j). specialize (N1 md d j rest x).
  unfold sym_is in *. destruct (match d with DUlong _ => _ | DSymbol _ => _ end).
  - rewrite (Y1 eq_refl). unfold map_res. destruct (inner md j) as [[i' y]| | |]; cbn [bind]; try (split; discriminate).
    split; intros E; injection E; intros E1 E2; [apply I in E1|]; subst; reflexivity.
  - split; [|discriminate]. intros E. now destruct (N1 eq_refl).
Qed.
Lemma not_body {T X} (g : T -> sasl_frame_body) (f : X -> sasl_frame_body) (r : res (bytes * T)) rest x : (forall y, g y <> f x) -> map_res g r <> Ok (rest, f x).
Proof. destruct r as [[i y]| | |]; intros N E; try discriminate. injection E; intros E1 _. exact (N y E1). Qed.
Ltac body_part := apply sasl_body_reads; [intros x y E; injection E; auto|
  intros md [n|a] i E; cbn [sasl_frame_body_select]; [apply Z.eqb_eq in E; now subst|apply sym_is_eq in E; unfold sym_is; now rewrite !E]|
  intros md [n|a] i rest x E; cbn [sasl_frame_body_select]; rewrite ?E;
    repeat match goal with |- context [if ?b then _ else _] => destruct b end; try discriminate;
    solve [apply not_body; intros; discriminate]].
Lemma sasl_reads X (A : way X) f : sasl_conversion A f -> forall md ch ext hdr body rest x, wire_header 1 ch ext hdr ->
  (sasl_frame_decode md (hdr ++ body) = Ok (rest, f x) <-> w_read A md body = Ok (rest, x)).
Proof.
  assert (K : forall md ch ext hdr body rest y, wire_header 1 ch ext hdr ->
    (sasl_frame_decode md (hdr ++ body) = Ok (rest, MkSaslFrame y) <-> decode sasl_frame_body_dec md body = Ok (rest, y))).
  { intros md ch ext hdr body rest y W. rewrite (sasl_extended md ch ext hdr body W). unfold map_res.
    destruct (decode sasl_frame_body_dec md body) as [[r z]| | |]; cbn [bind]; split; try discriminate; intros E; injection E; intros; subst; reflexivity. }
  intros [] md ch ext hdr body rest x W; (etransitivity; [exact (K md ch ext hdr body rest _ W)|]); clear K W; revert md body rest x; cbn [w_read spec_way way_of].
  - body_part.
  - body_part.
  - body_part.
  - body_part.
  - body_part.
Qed.

(** ** Those without a reader of their own *)
Lemma static_symbol_sent b : variant_size (variant_from_static_symbol b) = variant_size (variant_from_symbol (symbol_from_static b)) /\
  wbytes (variant_enc (variant_from_static_symbol b)) = wbytes (variant_enc (variant_from_symbol (symbol_from_static b))).
Proof. split; reflexivity. Qed.
Lemma described_sent d v : variant_size (variant_from_described (d, v)) = descriptor_size d + variant_size v /\
  wbytes (variant_enc (variant_from_described (d, v))) = wbytes (descriptor_enc d) ++ wbytes (variant_enc v).
Proof. split; [reflexivity|]. cbn [variant_from_described variant_enc]. apply wbytes_app. Qed.
Lemma condition_symbol_sent s : error_condition_size (condition_from_symbol s) = symbol_size s /\
  wbytes (error_condition_enc (condition_from_symbol s)) = wbytes (symbol_enc s).
Proof. split; reflexivity. Qed.
Lemma body_sent : (forall b, transfer_body_size (body_from_bin b) = zlen b /\ wbytes (transfer_body_enc (body_from_bin b)) = b) /\
  (forall m, transfer_body_size (body_from_in m) = message_size m /\ wbytes (transfer_body_enc (body_from_in m)) = wbytes (message_enc m)) /\
  (forall m, transfer_body_size (body_from_out m) = message_size m /\ wbytes (transfer_body_enc (body_from_out m)) = wbytes (message_enc m)).
Proof. repeat split. cbn. apply app_nil_r. Qed.

(** ** Texts *)
Lemma made_bytes b s : made_str b s -> str_bytes s = b.
Proof. now intros []. Qed.
Lemma made_texts b s : made_str b s -> is_utf8 b -> str_len s = zlen b /\ str_borrow s = b /\ symbol_borrow s = b /\ str_as_bytes_str s = Some b /\
  str_size s = bstr_size b /\ wbytes (str_enc s) = wbytes (bstr_enc b) /\
  symbol_size s = static_symbol_size b /\ wbytes (symbol_enc s) = wbytes (static_symbol_enc b).
Proof.
  intros M U. assert (V : utf8_valid b = true) by (destruct U as (t & F & ->); now apply utf8_text_valid).
  destruct M; cbn; rewrite ?V; repeat split.
Qed.
Lemma made_equal b s c t : made_str b s -> made_str c t -> (str_eqb s t = true <-> b = c) /\ (str_eq_text s c = true <-> b = c) /\ (symbol_eq_text s c = true <-> b = c).
Proof.
  intros M N. unfold symbol_eq_text. rewrite str_eqb_spec, !str_eq_text_spec. rewrite (made_bytes b s M), (made_bytes c t N). repeat split; auto.
Qed.
Lemma made_variants b v c : made_variant b v -> is_utf8 b -> variant_as_str v = Some b /\ variant_as_bytes_str v = Some (Some b) /\ (variant_eq_text v c = true <-> b = c).
Proof.
  intros M U. assert (A : variant_as_str v = Some b /\ variant_as_bytes_str v = Some (Some b)).
  { assert (V : utf8_valid b = true) by (destruct U as (t & F & ->); now apply utf8_text_valid).
    destruct M as [b|b|b s M|b s M]; try (cbn; rewrite ?V; now split);
    (split; [cbn; now rewrite (made_bytes b s M)|cbn; do 2 f_equal; now apply made_texts]). }
  destruct A as [A1 A2]. split; [exact A1|]. split; [exact A2|]. rewrite variant_eq_text_spec, A1. split; congruence.
Qed.
Lemma accessors_others v : (variant_as_bytes_str v = None <-> variant_as_str v = None).
Proof. destruct v; cbn; split; congruence. Qed.
Lemma unwrap_fails s : str_as_bytes_str s = None <-> exists b, s = SStatic b /\ utf8_valid b = false.
Proof.
  destruct s as [b|b]; cbn; [split; [discriminate|intros (c & E & _); discriminate]|].
  destruct (utf8_valid b) eqn:V; split; try discriminate; [intros (c & E & H); injection E as <-; congruence|now exists b|reflexivity].
Qed.

(** ** The rest *)
Lemma multiple_laws {T} (l : list T) : multiple_iter (multiple_from_vec l) = l /\ multiple_len (multiple_from_vec l) = Z.of_nat (List.length l) /\
  (multiple_is_empty l = true <-> multiple_len l = 0) /\ multiple_len (@multiple_default T) = 0 /\ multiple_is_empty (@multiple_default T) = true.
Proof.
  split; [reflexivity|]. split; [reflexivity|]. split; [|now split]. destruct l as [|x l]; cbn [multiple_is_empty]; unfold multiple_len; [now split|].
  rewrite zlen_cons. pose proof (zlen_nonneg l). split; [discriminate|lia].
Qed.
Lemma frame_names a x : In a frame_alts -> d_name (a_D a) = ("amqp:" ++ small_letters (frame_name (a_inj a x)) ++ ":list")%string.
Proof. intros H. revert x. repeat (destruct H as [<-|H]; [reflexivity|]). destruct H. Qed.
Lemma frame_names_differ a b x y : In a frame_alts -> In b frame_alts -> frame_name (a_inj a x) = frame_name (a_inj b y) -> a = b.
Proof.
  intros Ha Hb. revert x y. repeat (destruct Ha as [<-|Ha]; [repeat (destruct Hb as [<-|Hb]; [try reflexivity; intros x y E; discriminate E|]); destruct Hb|]).
  destruct Ha.
Qed.
Lemma frame_parts ch p f : amqp_frame_into_parts (amqp_frame_new ch p) = (ch, p) /\
  af_channel_id (amqp_frame_new ch p) = ch /\ af_performative (amqp_frame_new ch p) = p /\
  amqp_frame_new (fst (amqp_frame_into_parts f)) (snd (amqp_frame_into_parts f)) = f.
Proof. repeat split. now destruct f. Qed.
Lemma clone_same {E} (e : codec_error E) : codec_error_clone e = e <-> forall err, e <> KIo (Some err).
Proof.
  destruct e as [e| |[e|]]; cbn; split; congruence.
Qed.
Lemma clone_clone {E} (e : codec_error E) : codec_error_clone (codec_error_clone e) = codec_error_clone e.
Proof. now destruct e. Qed.
Lemma frame_name_empty f : frame_name f = "Empty"%string <-> f = FR_Empty.
Proof. destruct f; split; intros H; try discriminate H; reflexivity. Qed.

(** ** Symbols as items of an array *)
Lemma array_symbol inp j s : bytes_ok inp ->
  (symbol_array_decode inp = Ok (j, s) <-> exists b, s = SByteStr b /\ is_utf8 b /\ zlen b < 2 ^ 32 /\ inp = be4 (zlen b) ++ b ++ j).
Proof.
  intros H. unfold symbol_array_decode. split.
  - intros E. apply bind_ok in E as [[i b] [E1 E]]. apply read_bytes_u32_inv in E1 as (-> & L & Hb); [|exact H].
    apply bind_ok in E as [t [E2 E]]. apply from_utf8_inv in E2 as [-> U]; [|exact Hb]. injection E as <- <-. exists b. repeat split; assumption.
  - intros (b & -> & U & L & ->). rewrite read_bytes_u32_app by exact L. cbn [bind]. rewrite from_utf8_ok by exact U. reflexivity.
Qed.
Lemma array_symbol_encoded s rest : symbol_ok s -> str_len s < 2 ^ 32 ->
  symbol_array_decode (wbytes (a_enc symbol_A s) ++ rest) = Ok (rest, SByteStr (str_bytes s)).
Proof.
  intros Ho L. unfold symbol_array_decode. cbn [symbol_A a_enc]. rewrite str_len_bytes in *. wb. rewrite ?app_nil_r, <- ?app_assoc.
  rewrite read_bytes_u32_app by exact L. cbn [bind]. rewrite from_utf8_ok by (destruct s; exact Ho). reflexivity.
Qed.
Lemma array_symbol_item md inp : symbol_array_decode inp = symbol_dec md inp 0xb3.
Proof. reflexivity. Qed.
