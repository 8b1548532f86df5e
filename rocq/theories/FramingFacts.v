(** Facts about frame headers, whole frames, transfer payloads, and panics of the frame decoders. *)

From Coq Require Import String.
From Verif Require Import Io BaseFacts Utf8Spec Valid Wire PrimFacts DecLaws EncLaws VariantFacts TypeSpec TypeFacts CompositeSpec
  CompositeFacts AllTypes AllTypesFacts CodecSpec CodecFacts PanicFacts MessageSpec MessageFacts FrameSpec FrameFacts.
From Coq Require Import ZifyBool.
Ltac Zify.zify_post_hook ::= Z.div_mod_to_equations.
Open Scope Z_scope.

(** ** Frame headers *)
Lemma be_val_be2 v : 0 <= v < 2 ^ 16 -> be_val (be2 v) = v.
Proof. intros H. rewrite <- be_bytes_be2, be_val_be_bytes. apply Z.mod_small. exact H. Qed.
Lemma two_bytes a b : byte_ok a -> byte_ok b -> exists c, 0 <= c < 2 ^ 16 /\ [a; b] = be2 c.
Proof.
  unfold byte_ok. intros A B. exists (a * 256 + b). split; [lia|]. unfold be2. f_equal; [|f_equal]; lia.
Qed.
Lemma header_accepts type channel ext hdr body : wire_header type channel ext hdr ->
  decode_frame_header (hdr ++ body) type = Ok (body, channel).
Proof.
  intros [doff ch ex D C L]. unfold decode_frame_header. cbn [app]. rewrite <- app_assoc.
  rewrite check_len_true by (rewrite !zlen_cons, !zlen_app, zlen_be2; pose proof (zlen_nonneg ex); pose proof (zlen_nonneg body); lia).
  cbn [bind]. rewrite Z.eqb_refl. cbn [negb]. rewrite ztake_app by reflexivity. rewrite be_val_be2 by lia.
  cbv zeta. unfold HEADER_LEN. destruct (Z.ltb_spec (doff * 4) 8); [lia|].
  rewrite check_len_true by (rewrite !zlen_cons, !zlen_app, zlen_be2; pose proof (zlen_nonneg body); lia). cbn [bind].
  f_equal. f_equal. change (doff :: type :: be2 ch ++ ex ++ body) with ((doff :: type :: be2 ch) ++ ex ++ body). rewrite app_assoc.
  apply zdrop_app. rewrite zlen_app, !zlen_cons, zlen_be2. lia.
Qed.
Lemma header_read type inp body channel : bytes_ok inp -> decode_frame_header inp type = Ok (body, channel) ->
  exists ext hdr, inp = hdr ++ body /\ wire_header type channel ext hdr.
Proof.
  intros B E. unfold decode_frame_header in E. apply bind_ok in E as [[] [E1 E]]. apply check_len_ok in E1.
  destruct inp as [|doff [|t rest]]; try discriminate. destruct (Z.eqb_spec t type) as [->|]; [|discriminate]. cbn [negb] in E.
  cbv zeta in E. unfold HEADER_LEN in E. destruct (Z.ltb_spec (doff * 4) 8); [discriminate|]. apply bind_ok in E as [[] [E2 E]]. apply check_len_ok in E2.
  injection E as <- <-. rewrite !zlen_cons in E1, E2. destruct rest as [|a [|b rest]]; rewrite ?zlen_cons, ?zlen_nil in E1, E2; try lia.
  inversion_clear B as [|? ? B1 B']. inversion_clear B' as [|? ? _ B'']. inversion_clear B'' as [|? ? B2 B']. inversion_clear B' as [|? ? B3 B4].
  destruct (two_bytes a b B2 B3) as (c & C & CE).
  exists (ztake (doff * 4 - 8) rest), (doff :: type :: be2 c ++ ztake (doff * 4 - 8) rest). split.
  - rewrite <- CE. cbn [app]. replace (doff * 4 - 8 + 4) with (4 + (doff * 4 - 8)) by lia. rewrite <- zdrop_zdrop by lia.
    change (doff :: type :: a :: b :: rest) with ([doff; type; a; b] ++ rest).
    rewrite zdrop_app by reflexivity. rewrite ztake_zdrop. reflexivity.
  - change (a :: b :: rest) with ([a; b] ++ rest). rewrite ztake_app, CE by reflexivity. rewrite be_val_be2 by exact C.
    unfold byte_ok in B1. constructor; [lia|exact C|]. rewrite zlen_ztake; lia.
Qed.
Lemma header_wrong_type type doff t rest : t <> type -> 2 <= zlen rest -> decode_frame_header (doff :: t :: rest) type = Err (EUnexpectedFrameType t).
Proof.
  intros N L. unfold decode_frame_header. rewrite check_len_true by (rewrite !zlen_cons; lia). cbn [bind].
  destruct (Z.eqb_spec t type); [contradiction|reflexivity].
Qed.
Lemma header_small_offset type doff rest : doff < 2 -> 2 <= zlen rest -> decode_frame_header (doff :: type :: rest) type = Err EInvalidSize.
Proof.
  intros N L. unfold decode_frame_header. rewrite check_len_true by (rewrite !zlen_cons; lia). cbn [bind].
  rewrite Z.eqb_refl. cbn [negb]. cbv zeta. unfold HEADER_LEN. destruct (Z.ltb_spec (doff * 4) 8); [reflexivity|lia].
Qed.
Lemma header_short type inp : zlen inp < 4 -> decode_frame_header inp type = Err (EIncomplete (Some 4)).
Proof. intros L. unfold decode_frame_header, check_len. destruct (Z.ltb_spec (zlen inp) 4); [reflexivity|lia]. Qed.
Lemma header_no_room type doff rest : 2 <= doff -> 2 <= zlen rest < 4 * doff - 6 ->
  decode_frame_header (doff :: type :: rest) type = Err (EIncomplete (Some (4 * doff - 4))).
Proof.
  intros N L. unfold decode_frame_header. rewrite check_len_true by (rewrite !zlen_cons; lia). cbn [bind].
  rewrite Z.eqb_refl. cbn [negb]. cbv zeta. unfold HEADER_LEN. destruct (Z.ltb_spec (doff * 4) 8); [lia|].
  unfold check_len. rewrite !zlen_cons. destruct (Z.ltb_spec (1 + (1 + zlen rest)) (doff * 4 - 8 + 4)); [|lia]. cbn [bind]. do 3 f_equal. lia.
Qed.
Lemma header_result type inp : match decode_frame_header inp type with Ok _ | Err _ => True | _ => False end.
Proof.
  unfold decode_frame_header, check_len. destruct (Z.ltb_spec (zlen inp) 4); [exact I|]. cbn [bind].
  destruct inp as [|d [|t r]]; rewrite ?zlen_cons, ?zlen_nil in *; try lia. destruct (negb _); [exact I|]. cbv zeta.
  destruct (_ <? _); [exact I|]. destruct (_ <? _); exact I.
Qed.

(** ** Whole frames *)
Lemma amqp_layout ch p : wbytes (amqp_frame_enc (MkAmqpFrame ch p)) = be4 (8 + frame_size p) ++ 2 :: 0 :: be2 ch ++ frame_bytes p.
Proof. unfold amqp_frame_enc, amqp_frame_size, HEADER_LEN. cbn [af_performative af_channel_id]. rewrite wbytes_app. rewrite <- be_bytes_be4, <- be_bytes_be2. reflexivity. Qed.
Lemma sasl_layout b : wbytes (sasl_frame_enc (MkSaslFrame b)) = be4 (8 + s_size sasl_frame_body_S b) ++ 2 :: 1 :: be2 0 ++ s_bytes sasl_frame_body_S b.
Proof. unfold sasl_frame_enc, sasl_frame_size, HEADER_LEN. cbn [sf_body]. rewrite wbytes_app. rewrite <- be_bytes_be4, <- be_bytes_be2. reflexivity. Qed.
Lemma amqp_accepts md ch ext hdr p bs rest : wire_header 0 ch ext hdr -> wire_frame p bs -> frame_decodable p -> (takes_rest p -> rest = []) ->
  amqp_frame_decode md (hdr ++ bs ++ rest) = Ok (rest, MkAmqpFrame ch p).
Proof.
  intros H W D R. unfold amqp_frame_decode. etransitivity; [apply (bind_eq _ _ _ (header_accepts _ _ _ _ (bs ++ rest) H))|].
  cbv beta iota. rewrite (frame_accepts md p bs rest W D R). reflexivity.
Qed.
Lemma sasl_accepts md ch ext hdr b bs rest : wire_header 1 ch ext hdr -> s_wire sasl_frame_body_S b bs -> s_decodable sasl_frame_body_S b ->
  sasl_frame_decode md (hdr ++ bs ++ rest) = Ok (rest, MkSaslFrame b).
Proof.
  intros H W D. unfold sasl_frame_decode. etransitivity; [apply (bind_eq _ _ _ (header_accepts _ _ _ _ (bs ++ rest) H))|].
  cbv beta iota. pose proof (type_accepts sasl_frame_body_S ty_sasl_frame_body md b bs rest W D) as E.
  change (decode sasl_frame_body_dec md (bs ++ rest) = Ok (rest, b)) in E. rewrite E. reflexivity.
Qed.
Lemma plain_header type ch : 0 <= ch < 2 ^ 16 -> wire_header type ch [] (2 :: type :: be2 ch).
Proof. intros H. rewrite <- (app_nil_r (be2 ch)). constructor; [lia|exact H|reflexivity]. Qed.
Lemma amqp_round_trip md ch p : 0 <= ch < 2 ^ 16 -> frame_sendable p ->
  exists body, wbytes (amqp_frame_enc (MkAmqpFrame ch p)) = be4 (4 + zlen body) ++ body /\ 4 <= zlen body /\ 4 + zlen body < 2 ^ 32 /\
    amqp_frame_size (MkAmqpFrame ch p) = 4 + zlen body /\
    amqp_frame_decode md body = Ok ([], MkAmqpFrame ch (frame_canon p)).
Proof.
  intros C (V & M & HZ & EN & L & D). destruct (frame_size_bytes p V M) as (S & _ & _). rewrite HZ in S. unfold HEADER_LEN in L.
  pose proof (zlen_nonneg (frame_bytes p)) as P.
  assert (Z1 : zlen (2 :: 0 :: be2 ch ++ frame_bytes p) = 4 + zlen (frame_bytes p)) by (rewrite !zlen_cons, zlen_app, zlen_be2; lia).
  exists (2 :: 0 :: be2 ch ++ frame_bytes p). rewrite Z1. split; [|split; [lia|split; [lia|split]]].
  - rewrite amqp_layout. do 2 f_equal. lia.
  - unfold amqp_frame_size, HEADER_LEN. cbn [af_performative]. lia.
  - pose proof (amqp_accepts md ch [] (2 :: 0 :: be2 ch) (frame_canon p) (frame_bytes p) [] (plain_header 0 ch C)) as A.
    rewrite app_nil_r in A. apply A; [apply frame_emits; auto; lia|exact D|auto].
Qed.
Lemma sasl_round_trip md b : sasl_sendable b ->
  exists body, wbytes (sasl_frame_enc (MkSaslFrame b)) = be4 (4 + zlen body) ++ body /\ 4 <= zlen body /\ 4 + zlen body < 2 ^ 32 /\
    sasl_frame_size (MkSaslFrame b) = 4 + zlen body /\
    sasl_frame_decode md body = Ok ([], MkSaslFrame (s_canon sasl_frame_body_S b)).
Proof.
  intros (V & EN & L & D). pose proof (type_size sasl_frame_body_S ty_sasl_frame_body b V) as S. unfold HEADER_LEN in L.
  pose proof (zlen_nonneg (s_bytes sasl_frame_body_S b)) as P.
  assert (Z1 : zlen (2 :: 1 :: be2 0 ++ s_bytes sasl_frame_body_S b) = 4 + zlen (s_bytes sasl_frame_body_S b)) by (rewrite !zlen_cons, zlen_app, zlen_be2; lia).
  exists (2 :: 1 :: be2 0 ++ s_bytes sasl_frame_body_S b). rewrite Z1. split; [|split; [lia|split; [lia|split]]].
  - rewrite sasl_layout. do 2 f_equal. lia.
  - unfold sasl_frame_size, HEADER_LEN. cbn [sf_body]. change (sasl_frame_body_size b) with (s_size sasl_frame_body_S b). lia.
  - pose proof (sasl_accepts md 0 [] (2 :: 1 :: be2 0) (s_canon sasl_frame_body_S b) (s_bytes sasl_frame_body_S b) [] (plain_header 1 0 ltac:(lia))) as A.
    rewrite app_nil_r in A. apply A; [apply type_emits; auto; [exact ty_sasl_frame_body|lia]|exact D].
Qed.
Lemma amqp_read md inp rest f : bytes_ok inp -> amqp_frame_decode md inp = Ok (rest, f) ->
  (0 <= af_channel_id f < 2 ^ 16 /\ frame_valid (af_performative f) /\ frame_memo_ok (af_performative f) /\ frame_headers (af_performative f) = 0) /\
  exists ext hdr bs, inp = hdr ++ bs ++ rest /\ wire_header 0 (af_channel_id f) ext hdr /\ frame_decode md bs = Ok ([], af_performative f) /\
    amqp_frame_decode md (hdr ++ bs) = Ok ([], f).
Proof.
  intros B E. unfold amqp_frame_decode in E. apply bind_ok in E as [[i ch] [E1 E]]. apply bind_ok in E as [[i2 p] [E2 E]]. injection E as <- <-.
  cbn [af_channel_id af_performative]. destruct (header_read _ _ _ _ B E1) as (ext & hdr & -> & H). apply Forall_app in B as [_ B].
  destruct (frame_read md i i2 p E2) as ((q & -> & Q) & V & M & Z0).
  split; [split; [now inversion H|]; split; [auto|]; split; [exact M|exact Z0]|]. exists ext, hdr, q. split; [reflexivity|]. split; [exact H|]. split; [exact Q|].
  unfold amqp_frame_decode. etransitivity; [apply (bind_eq _ _ _ (header_accepts _ _ _ _ q H))|]. cbv beta iota. rewrite Q. reflexivity.
Qed.
Lemma sasl_read md inp rest f : bytes_ok inp -> sasl_frame_decode md inp = Ok (rest, f) ->
  s_valid sasl_frame_body_S (sf_body f) /\
  exists ch ext hdr bs, inp = hdr ++ bs ++ rest /\ wire_header 1 ch ext hdr /\ decode sasl_frame_body_dec md bs = Ok ([], sf_body f) /\
    sasl_frame_decode md (hdr ++ bs) = Ok ([], f).
Proof.
  intros B E. unfold sasl_frame_decode in E. apply bind_ok in E as [[i ch] [E1 E]]. apply bind_ok in E as [[i2 p] [E2 E]]. injection E as <- <-.
  cbn [sf_body]. destruct (header_read _ _ _ _ B E1) as (ext & hdr & -> & H). apply Forall_app in B as [_ B].
  destruct (type_lawful sasl_frame_body_S md ty_sasl_frame_body _ _ _ E2) as [(q & -> & Q) V]. specialize (Q []). rewrite app_nil_r in Q.
  split; [exact (V B)|]. exists ch, ext, hdr, q. split; [reflexivity|]. split; [exact H|]. split; [exact Q|].
  unfold sasl_frame_decode. etransitivity; [apply (bind_eq _ _ _ (header_accepts _ _ _ _ q H))|]. cbv beta iota.
  change (decode sasl_frame_body_dec md q = Ok ([], p)) in Q. rewrite Q. reflexivity.
Qed.
Lemma amqp_total md inp : amqp_frame_decode md inp <> Oof.
Proof.
  unfold amqp_frame_decode. intros E. apply bind_oof in E as [E|[[i c] [_ E]]].
  - pose proof (header_result FRAME_TYPE_AMQP inp) as H. now rewrite E in H.
  - apply bind_oof in E as [E|[[i2 p] [_ E]]]; [now apply frame_total in E|discriminate].
Qed.
Lemma sasl_total md inp : sasl_frame_decode md inp <> Oof.
Proof.
  unfold sasl_frame_decode. intros E. apply bind_oof in E as [E|[[i c] [_ E]]].
  - pose proof (header_result FRAME_TYPE_SASL inp) as H. now rewrite E in H.
  - apply bind_oof in E as [E|[[i2 p] [_ E]]]; [|discriminate]. exact (type_total sasl_frame_body_S ty_sasl_frame_body md i E).
Qed.

(** ** Transfer payloads *)
Lemma transfer_appends v : frame_bytes (FR_Transfer v) = frame_bytes (FR_Transfer (transfer_of (transfer_to v) None)) ++ transfer_payload v.
Proof.
  unfold frame_bytes. cbn [frame_enc]. rewrite (transfer_bytes_eq v), (transfer_bytes_eq (transfer_of (transfer_to v) None)).
  rewrite transfer_to_of. unfold transfer_payload at 2. rewrite transfer_body_of. now rewrite app_nil_r.
Qed.
Lemma transfer_counts v : frame_valid (FR_Transfer v) -> frame_memo_ok (FR_Transfer v) -> frame_headers (FR_Transfer v) = 0 ->
  frame_size (FR_Transfer v) = frame_size (FR_Transfer (transfer_of (transfer_to v) None)) + zlen (transfer_payload v).
Proof.
  intros V M H. destruct (frame_size_bytes _ V M) as (E & _). rewrite H in E.
  assert (V0 : frame_valid (FR_Transfer (transfer_of (transfer_to v) None))).
  { cbn in V |- *. destruct V as [V _]. split; [|now destruct v]. change (each_field (@s_valid) transfer_table (transfer_to (transfer_of (transfer_to v) None))).
    rewrite transfer_to_of. exact V. }
  assert (M0 : frame_memo_ok (FR_Transfer (transfer_of (transfer_to v) None))) by (cbn [frame_memo_ok]; now rewrite transfer_body_of).
  assert (H0 : frame_headers (FR_Transfer (transfer_of (transfer_to v) None)) = 0) by (cbn [frame_headers]; now rewrite transfer_body_of).
  destruct (frame_size_bytes _ V0 M0) as (E0 & _). rewrite H0 in E0. rewrite E, E0, transfer_appends, zlen_app. lia.
Qed.
Lemma transfer_verbatim md inp rest v : frame_decode md inp = Ok (rest, FR_Transfer v) ->
  rest = [] /\ exists hd, inp = hd ++ transfer_payload v /\
    forall q, frame_decode md (hd ++ q) = Ok ([], FR_Transfer (transfer_of (transfer_to v) (received_payload q))).
Proof.
  destruct inp as [|c r]; [discriminate|]. rewrite frame_decode_cons. unfold frame_dec. intros E.
  apply bind_ok in E as [[] [E1 E]]. apply bind_ok in E as [[i d] [E2 E]].
  destruct (decode_lawful _ _ md descriptor_lawful _ _ _ E2) as [(p & -> & Hp) _].
  assert (K : decode_transfer_inner md i = Ok (rest, v) /\ forall j, union_select frame_alts md d j = map_res FR_Transfer (decode_transfer_inner md j)).
  { revert E. unfold frame_alts. cbn [union_select a_D a_inj a_X].
    do 9 (destruct (matches _ _ d); [intros E; apply map_res_ok in E as (x & E & X); first [discriminate X|injection X as <-; split; [exact E|reflexivity]]|]).
    discriminate. }
  destruct K as [K1 K2]. rewrite transfer_inner_eq in K1. apply bind_ok in K1 as [[rem a] [K1 K3]]. injection K3 as <- <-.
  destruct (gd_lawful _ head_D md i rem a K1) as [(q & -> & Hq) _]. split; [reflexivity|].
  assert (P : transfer_payload (transfer_of a (received_payload rem)) = rem).
  { unfold transfer_payload. rewrite transfer_body_of. destruct rem; [reflexivity|]. cbn [received_payload]. unfold payload. cbn [transfer_body_enc].
    rewrite wbytes_cons, wbytes_nil. apply app_nil_r. }
  exists (c :: p ++ q). rewrite P. split; [cbn [app]; now rewrite <- app_assoc|]. intros z. cbn [app]. rewrite frame_decode_cons. unfold frame_dec. rewrite E1. cbn [bind].
  rewrite <- app_assoc. etransitivity; [apply (bind_eq _ _ _ (Hp (q ++ z)))|]. cbv beta iota. rewrite K2, transfer_inner_eq.
  specialize (Hq z). change (head_inner md (q ++ z) = Ok (z, a)) in Hq. rewrite Hq. cbn [bind map_res]. unfold map_res. cbn [bind]. now rewrite transfer_to_of.
Qed.

(** ** Panics *)
Section FramePanics.
Variable Q : mode -> panic -> Prop.
Hypothesis Qarith : Q Debug PArith.
Hypothesis Qslice : forall md, Q md PSlice.
Hypothesis Qchrono : forall md, Q md PChrono.
Hypothesis Qhash : forall md, Q md PUnimplemented.
Lemma head_may md inp : may Q md (head_inner md inp).
Proof.
  apply (may_inner Q Qarith head_K md inp head_tr). unfold head_K, transfer_table. cbn [fields_panics k_fields].
  repeat match goal with |- _ /\ _ => split end; try exact I; try (apply panic_free_panics; constructor).
  now apply delivery_state_panics.
Qed.
Lemma frame_alts_panic : alts_panic Q frame_alts.
Proof.
  apply Forall_forall. intros a Ha md inp. unfold frame_alts in Ha. cbn [In] in Ha.
  repeat (destruct Ha as [<-|Ha]; [cbn [a_D]|]); try contradiction.
  - now apply open_may.
  - now apply begin_may.
  - now apply attach_may.
  - now apply flow_may.
  - cbn [transfer_D d_inner]. rewrite transfer_inner_eq. apply may_bind; [apply head_may|]. intros [r x]. apply may_ok.
  - now apply disposition_may.
  - now apply detach_may.
  - now apply end_may.
  - now apply close_may.
Qed.
Lemma frame_may md inp : may Q md (frame_decode md inp).
Proof.
  destruct inp as [|c r]; [apply may_ok|]. rewrite frame_decode_cons. unfold frame_dec. apply may_bind; [apply may_validate|]. intros u.
  apply may_bind; [apply may_decode, descriptor_panics|]. intros [i d]. apply may_union_select, frame_alts_panic.
Qed.
End FramePanics.
Lemma amqp_panic md inp p : amqp_frame_decode md inp = Panic p -> possible_panic md p.
Proof.
  revert p. change (may possible_panic md (amqp_frame_decode md inp)). unfold amqp_frame_decode. apply may_bind.
  - intros p E. pose proof (header_result FRAME_TYPE_AMQP inp) as H. now rewrite E in H.
  - intros [i c]. apply may_bind; [|intros [j f]; apply may_ok]. now apply frame_may.
Qed.
Lemma sasl_panic md inp p : sasl_frame_decode md inp = Panic p -> possible_panic md p.
Proof.
  revert p. change (may possible_panic md (sasl_frame_decode md inp)). unfold sasl_frame_decode. apply may_bind.
  - intros p E. pose proof (header_result FRAME_TYPE_SASL inp) as H. now rewrite E in H.
  - intros [i c]. apply may_bind; [|intros [j f]; apply may_ok]. intros p E. exact (type_panic sasl_frame_body_S md i p ty_sasl_frame_body E).
Qed.

(** ** Headers, seen through the frame decoders *)
Lemma amqp_extended md ch ext hdr body : wire_header 0 ch ext hdr ->
  amqp_frame_decode md (hdr ++ body) = ('(rest, p) <- frame_decode md body ;; Ok (rest, MkAmqpFrame ch p)).
Proof. intros H. unfold amqp_frame_decode. exact (bind_eq _ _ _ (header_accepts _ _ _ _ body H)). Qed.
Lemma sasl_extended md ch ext hdr body : wire_header 1 ch ext hdr ->
  sasl_frame_decode md (hdr ++ body) = map_res MkSaslFrame (decode sasl_frame_body_dec md body).
Proof. intros H. unfold sasl_frame_decode. exact (bind_eq _ _ _ (header_accepts _ _ _ _ body H)). Qed.
Lemma amqp_header_error md inp e : decode_frame_header inp 0 = Err e -> amqp_frame_decode md inp = Err e.
Proof. intros H. unfold amqp_frame_decode, FRAME_TYPE_AMQP. now rewrite H. Qed.
Lemma sasl_header_error md inp e : decode_frame_header inp 1 = Err e -> sasl_frame_decode md inp = Err e.
Proof. intros H. unfold sasl_frame_decode, FRAME_TYPE_SASL. now rewrite H. Qed.
Lemma header_bad type inp e : bad_header type inp e -> decode_frame_header inp type = Err e.
Proof.
  intros [H|(d & t & r & -> & L & [(N & ->)|(-> & [(N & ->)|(N & M & ->)])])].
  - destruct H as [H ->]. now apply header_short.
  - now apply header_wrong_type.
  - now apply header_small_offset.
  - apply header_no_room; lia.
Qed.
Lemma header_cases type inp : bytes_ok inp -> (exists ch ext hdr body, inp = hdr ++ body /\ wire_header type ch ext hdr) \/ exists e, bad_header type inp e.
Proof.
  intros B. destruct (decode_frame_header inp type) as [[body ch]|e|p|] eqn:E.
  - left. destruct (header_read _ _ _ _ B E) as (ext & hdr & -> & H). now exists ch, ext, hdr, body.
  - right. destruct (Z_lt_ge_dec (zlen inp) 4) as [L|L]; [eexists; left; split; [lia|reflexivity]|].
    destruct inp as [|d [|t r]]; rewrite ?zlen_cons, ?zlen_nil in L; try lia.
    destruct (Z.eq_dec t type) as [->|N]; [|eexists; right; exists d, t, r; split; [reflexivity|]; split; [lia|]; left; split; [exact N|reflexivity]].
    destruct (Z_lt_ge_dec d 2) as [D|D]; [eexists; right; exists d, type, r; split; [reflexivity|]; split; [lia|]; right; split; [reflexivity|]; left; split; [exact D|reflexivity]|].
    destruct (Z_lt_ge_dec (zlen r) (4 * d - 6)) as [M|M];
      [eexists; right; exists d, type, r; split; [reflexivity|]; split; [lia|]; right; split; [reflexivity|]; right; split; [lia|]; split; [exact M|reflexivity]|].
    exfalso. revert E. unfold decode_frame_header. rewrite check_len_true by (rewrite !zlen_cons; lia). cbn [bind]. rewrite Z.eqb_refl. cbn [negb]. cbv zeta.
    unfold HEADER_LEN. destruct (Z.ltb_spec (d * 4) 8); [lia|]. rewrite check_len_true by (rewrite !zlen_cons; lia). discriminate.
  - pose proof (header_result type inp) as H. now rewrite E in H.
  - pose proof (header_result type inp) as H. now rewrite E in H.
Qed.
Lemma amqp_bad_header md inp e : bad_header 0 inp e -> amqp_frame_decode md inp = Err e.
Proof. intros H. now apply amqp_header_error, header_bad. Qed.
Lemma sasl_bad_header md inp e : bad_header 1 inp e -> sasl_frame_decode md inp = Err e.
Proof. intros H. now apply sasl_header_error, header_bad. Qed.

(** ** Statements *)
Lemma amqp_size_bytes ch f : frame_valid f -> frame_memo_ok f ->
  amqp_frame_size (MkAmqpFrame ch f) = zlen (wbytes (amqp_frame_enc (MkAmqpFrame ch f))) + 3 * frame_headers f /\
  frame_size f = zlen (frame_bytes f) + 3 * frame_headers f /\ 0 <= frame_headers f.
Proof.
  intros V M. destruct (frame_size_bytes f V M) as (E & _ & P). split; [|now split]. rewrite amqp_layout, zlen_app, !zlen_cons, zlen_app, zlen_be2, zlen_be4.
  unfold amqp_frame_size, HEADER_LEN. cbn [af_performative]. lia.
Qed.
Lemma sasl_size_bytes b : s_valid sasl_frame_body_S b -> sasl_frame_size (MkSaslFrame b) = zlen (wbytes (sasl_frame_enc (MkSaslFrame b))).
Proof.
  intros V. pose proof (type_size sasl_frame_body_S ty_sasl_frame_body b V) as E. rewrite sasl_layout, zlen_app, !zlen_cons, zlen_app, zlen_be2, zlen_be4.
  unfold sasl_frame_size, HEADER_LEN. cbn [sf_body]. change (sasl_frame_body_size b) with (s_size sasl_frame_body_S b). lia.
Qed.
Lemma frame_empty md bs rest f : frame_decode md bs = Ok (rest, f) -> (f = FR_Empty <-> bs = []).
Proof.
  intros E. split; [|intros ->; now injection E as _ <-]. intros ->. destruct bs as [|c r]; [reflexivity|]. exfalso.
  rewrite frame_decode_cons in E. unfold frame_dec in E. apply bind_ok in E as [[] [_ E]]. apply bind_ok in E as [[i d] [_ E]].
  revert E. unfold frame_alts. cbn [union_select a_D a_inj a_X].
  do 9 (destruct (matches _ _ d); [intros E; apply map_res_ok in E as (x & E & X); discriminate X|]). discriminate.
Qed.
Lemma empty_is_absent r : frame_bytes (FR_Transfer (transfer_of r (Some (TBData [])))) = frame_bytes (FR_Transfer (transfer_of r None)).
Proof. rewrite transfer_appends, transfer_to_of. unfold transfer_payload. rewrite transfer_body_of. apply app_nil_r. Qed.
Lemma transfer_body_received md v : frame_sendable (FR_Transfer v) ->
  exists w, frame_decode md (frame_bytes (FR_Transfer v)) = Ok ([], FR_Transfer w) /\ transfer_body_f w = received_payload (transfer_payload v).
Proof.
  intros (V & M & _ & EN & L & D). unfold HEADER_LEN in L. eexists. split.
  - rewrite <- (app_nil_r (frame_bytes _)). apply (frame_accepts md (frame_canon (FR_Transfer v))); [apply frame_emits; auto; lia|exact D|auto].
  - apply transfer_body_of.
Qed.
Lemma received_body md inp rest v : frame_decode md inp = Ok (rest, FR_Transfer v) -> transfer_body_f v = received_payload (transfer_payload v).
Proof.
  intros E. destruct (transfer_verbatim md inp rest v E) as (-> & hd & -> & H). specialize (H (transfer_payload v)). rewrite H in E.
  assert (X : transfer_of (transfer_to v) (received_payload (transfer_payload v)) = v) by congruence.
  rewrite <- X at 1. apply transfer_body_of.
Qed.
Lemma frame_panics_refuted : exists i1 i2 i3, bytes_ok i1 /\ bytes_ok i2 /\ bytes_ok i3 /\
  amqp_frame_decode Debug i1 = Panic PSlice /\ amqp_frame_decode Release i1 = Panic PSlice /\
  sasl_frame_decode Debug i2 = Panic PSlice /\ sasl_frame_decode Release i2 = Panic PSlice /\
  amqp_frame_decode Debug i3 = Panic PArith.
Proof.
  exists [2; 0; 0; 0; 0; 0x53; 0x10; 0xc0; 15; 10; 0xa1; 1; 97; 0x40; 0x40; 0x40; 0x40; 0x40; 0x40; 0x40; 0x40; 0xc1; 5; 0].
  exists [2; 1; 0; 0; 0; 0x53; 0x40; 0xc0; 4; 1; 0xe0; 1; 0].
  exists [2; 0; 0; 0; 0; 0x53; 0x17; 0xc0; 0; 0].
  do 3 (split; [repeat (apply Forall_cons; [unfold byte_ok; lia|]); apply Forall_nil|]).
  repeat split; vm_compute; reflexivity.
Qed.
Lemma frame_length_refuted : exists ch f rest, frame_valid f /\ frame_memo_ok f /\
  wbytes (amqp_frame_enc (MkAmqpFrame ch f)) = be4 (zlen (wbytes (amqp_frame_enc (MkAmqpFrame ch f))) + 3) ++ rest.
Proof.
  exists 1, (FR_Transfer (MkTransfer 0 None None None None false None None false false false (Some (TBMessageOut
    (MkMessage None (Some (MkHeader true 4 None false 0)) None None None None None (MkBody [[1]] [] [] None) 0))))).
  eexists. split; [|split].
  - cbn. repeat split; try lia. all: repeat constructor; unfold byte_ok; cbn; lia.
  - cbn. tauto.
  - vm_compute. reflexivity.
Qed.
