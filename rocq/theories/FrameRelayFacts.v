(** Frames received and sent on. *)

From Coq Require Import String.
From Verif Require Import Io BaseFacts Utf8Spec Utf8Facts Valid Wire PrimFacts DecLaws EncLaws VariantFacts TypeSpec TypeFacts
  CompositeSpec CompositeFacts AllTypes AllTypesFacts CodecSpec CodecFacts RelayFacts MessageSpec MessageFacts FrameSpec FrameFacts FramingFacts
  StreamSpec StreamFacts.
From Coq Require Import ZifyBool.
Ltac Zify.zify_post_hook ::= Z.div_mod_to_equations.
Open Scope Z_scope.

(** ** Frames *)
Lemma head_fields_relay : relay_fields (k_fields head_K). Proof. unfold head_K, transfer_table. fields_relay_tac. Qed.
Lemma head_relay_D : relay_D (composite_D head_K). Proof. exact (composite_relay_D _ head_tr head_fields_relay). Qed.
Definition settled_D {X} (D : dspec X) : Prop := forall md inp rest v, d_inner D md inp = Ok (rest, v) -> bytes_ok inp ->
  d_decodable D (d_canon D v) -> d_canon D v = v.
Lemma relay_settled {X} (D : dspec X) : relay_D D -> settled_D D.
Proof. intros [H _] md inp rest v E B Hd. destruct (H md inp rest v E) as [_ K]. exact (K B Hd). Qed.
Lemma transfer_settled : settled_D transfer_D.
Proof.
  intros md inp rest v E B. cbn [transfer_D d_inner d_decodable d_canon] in *. rewrite transfer_inner_eq in E. apply bind_ok in E as [[rem a] [E1 E2]].
  injection E2 as <- <-. rewrite !transfer_to_of. intros Hd.
  pose proof (relay_settled _ head_relay_D md inp rem a E1 B) as K. cbn [composite_D d_decodable d_canon head_K k_to k_of k_fields] in K.
  assert (K' : canon_fields transfer_table a = a) by (apply K; exact Hd). rewrite K'.
  unfold transfer_payload. rewrite transfer_body_of. destruct rem as [|c r]; [reflexivity|].
  cbn [received_payload]. replace (payload (TBData (c :: r))) with (c :: r); [reflexivity|].
  unfold payload. cbn [transfer_body_enc]. wb. reflexivity.
Qed.
Lemma frame_alts_settled : Forall (fun a => settled_D (a_D a)) frame_alts.
Proof.
  unfold frame_alts. repeat apply Forall_cons; try apply Forall_nil; cbn [a_D]. 5: exact transfer_settled.
  all: apply relay_settled; auto with relays.
Qed.
Lemma frame_settled md inp rest f : frame_decode md inp = Ok (rest, f) -> bytes_ok inp -> frame_decodable (frame_canon f) -> frame_canon f = f.
Proof.
  destruct inp as [|c r]. { intros [= <- <-]. reflexivity. }
  rewrite frame_decode_cons. unfold frame_dec. intros E B. apply bind_ok in E as [[] [_ E]]. apply bind_ok in E as [[i d] [E2 E]].
  inversion B as [|? ? _ B']; subst.
  assert (Bi : bytes_ok i) by exact (lawful_bytes_ok _ _ _ _ _ (decode_lawful _ _ md descriptor_lawful) E2 B').
  assert (forall l, incl l frame_alts -> union_select l md d i = Ok (rest, f) ->
    exists a x, In a frame_alts /\ f = a_inj a x /\ d_inner (a_D a) md i = Ok (rest, x)) as K.
  { clear E. induction l as [|a l IH]; intros Hl E; [discriminate|]. cbn [union_select] in *. destruct (matches _ _ d).
    - apply map_res_ok in E as (x & E & ->). exists a, x. split; [apply Hl; now left|]. now split.
    - apply IH; [|exact E]. intros b Hb. apply Hl. now right. }
  destruct (K frame_alts (incl_refl _) E) as (a & x & Ha & -> & Hi). unfold frame_canon. rewrite canon_union_inj by (auto using frame_alts_ok).
  intros Hd. f_equal. pose proof frame_alts_settled as S. rewrite Forall_forall in S. apply (S a Ha md i rest x Hi Bi).
  apply (the_alternative_inj (@d_decodable) frame_alts a _ frame_alts_ok Ha).
  unfold frame_decodable, on_frame in Hd.
  clear - Hd Ha. unfold frame_alts in Ha. repeat (destruct Ha as [<-|Ha]; [exact Hd|]). destruct Ha.
Qed.

Lemma frame_resend md md' inp rest f : bytes_ok inp -> amqp_frame_decode md inp = Ok (rest, f) ->
  frame_encodable (af_performative f) -> amqp_frame_size f < 2 ^ 32 -> frame_decodable (frame_canon (af_performative f)) ->
  amqp_sendable f /\ amqp_received f = f /\ frame_of amqp_frame_decode md' f (wbytes (amqp_frame_enc f)).
Proof.
  intros B E EN L D. destruct (amqp_read md inp rest f B E) as ((C & V & M & Z0) & ext & hdr & bs & -> & W & Q & _).
  assert (S : amqp_sendable f). { split; [exact C|]. repeat split; auto. }
  assert (R : amqp_received f = f).
  { destruct f as [ch p]. unfold amqp_received. cbn [af_channel_id af_performative] in *. f_equal. eapply frame_settled; eauto.
    apply Forall_app in B as [_ B]. now apply Forall_app in B as [B _]. }
  split; [exact S|]. split; [exact R|]. rewrite <- R at 1. now apply amqp_frame_of.
Qed.
Lemma sasl_resend md md' inp rest f : bytes_ok inp -> sasl_frame_decode md inp = Ok (rest, f) ->
  s_encodable sasl_frame_body_S (sf_body f) -> sasl_frame_size f < 2 ^ 32 -> s_decodable sasl_frame_body_S (s_canon sasl_frame_body_S (sf_body f)) ->
  sasl_sendable (sf_body f) /\ sasl_received f = f /\ frame_of sasl_frame_decode md' f (wbytes (sasl_frame_enc f)).
Proof.
  intros B E EN L D. destruct (sasl_read md inp rest f B E) as (V & ch & ext & hdr & bs & -> & W & Q & _).
  assert (S : sasl_sendable (sf_body f)). { repeat split; auto. }
  assert (R : sasl_received f = f).
  { destruct f as [p]. unfold sasl_received. cbn [sf_body] in *. f_equal.
    apply Forall_app in B as [_ B]. apply Forall_app in B as [B _]. exact (received_canonical sasl_frame_body_S ty_sasl_frame_body md bs [] p B Q D). }
  split; [exact S|]. split; [exact R|]. rewrite <- R at 1. now apply sasl_frame_of.
Qed.

(** ** Streams *)
Lemma bytes_ok_zdrop n src : bytes_ok src -> bytes_ok (zdrop n src).
Proof. intros H. rewrite <- (ztake_zdrop n src) in H. now apply Forall_app in H as [_ H]. Qed.
Lemma bytes_ok_ztake n src : bytes_ok src -> bytes_ok (ztake n src).
Proof. intros H. rewrite <- (ztake_zdrop n src) in H. now apply Forall_app in H as [H _]. Qed.
Section S.
Context {T : Type} (D : mode -> bytes -> res (bytes * T)).
Lemma decode_item_from md st src st1 src1 x : amqp_codec_decode D md st src = (st1, src1, DItem x) -> bytes_ok src ->
  bytes_ok src1 /\ exists body, bytes_ok body /\ D md body = Ok ([], x).
Proof.
  intros E B. destruct st as [|size].
  - rewrite header_state in E. destruct (Z.ltb_spec (zlen src) 8); [discriminate|].
    destruct (usub md 64 (be_val (ztake 4 src)) 4) as [n|e|p|]; try discriminate.
    destruct (zlen src <? be_val (ztake 4 src)); [discriminate|]. apply arm_item in E as (_ & _ & -> & E).
    split; [now do 2 apply bytes_ok_zdrop|]. eexists. split; [|exact E]. now apply bytes_ok_ztake, bytes_ok_zdrop.
  - apply arm_item in E as (_ & _ & -> & E). split; [now apply bytes_ok_zdrop|]. eexists. split; [|exact E]. now apply bytes_ok_ztake.
Qed.
Lemma items_from md chunks x : Forall bytes_ok chunks -> In (EvItem x) (snd (feed_all D md stream_new chunks)) ->
  exists body, bytes_ok body /\ D md body = Ok ([], x).
Proof.
  intros B. rewrite feed_all_concat. change (feed D md stream_new (concat chunks)) with (run D md FrameHeader (concat chunks)).
  assert (B' : bytes_ok (concat chunks)). { clear x. induction B; cbn [concat]; [apply Forall_nil|]. now apply Forall_app. }
  revert B'. generalize FrameHeader (concat chunks). apply (run_ind D md (fun st src => bytes_ok src -> In (EvItem x) (snd (run D md st src)) ->
    exists body, bytes_ok body /\ D md body = Ok ([], x))).
  intros st src IH B'. rewrite run_eq. destruct (amqp_codec_decode D md st src) as [[st1 src1] [|y|e|p|]] eqn:E; cbn [snd].
  - intros [].
  - destruct (decode_item_from _ _ _ _ _ _ E B') as [B1 Hy]. specialize (IH _ _ _ eq_refl B1). destruct (run D md st1 src1) as [s ev].
    cbn [after snd app] in *. intros [[= ->]|K]; [exact Hy|now apply IH].
  - intros [K|[]]; discriminate.
  - intros [K|[]]; discriminate.
  - intros [K|[]]; discriminate.
Qed.
End S.
(** A frame that can be sent on: no lists in it (arrays aside), and nothing the decoder does not handle. *)
Lemma amqp_relayed md md' chunks st items b : Forall bytes_ok chunks ->
  feed_all amqp_frame_decode md stream_new chunks = (st, map (fun i => EvItem (snd i)) items) ->
  Forall (fun i => 0 <= fst i /\ frame_encodable (af_performative (snd i)) /\ amqp_frame_size (snd i) < 2 ^ 32 /\
                   frame_decodable (frame_canon (af_performative (snd i)))) items -> buf_ok b -> b_data b = [] ->
  exists b', send_all amqp_frame_size amqp_frame_enc items b = Some b' /\
    forall chunks', concat chunks' = b_data b' -> feed_all amqp_frame_decode md' stream_new chunks' = (stream_new, map (fun i => EvItem (snd i)) items).
Proof.
  intros B E F O N. rewrite Forall_forall in F.
  assert (K : forall i, In i items -> 0 <= fst i /\ amqp_sendable (snd i) /\ amqp_received (snd i) = snd i).
  { intros i Hi. destruct (F i Hi) as (H0 & H1 & H2 & H3). split; [exact H0|].
    destruct (items_from amqp_frame_decode md chunks (snd i) B) as (body & Bb & Eb).
    { rewrite E. cbn [snd]. now apply (in_map (fun i => EvItem (snd i))). }
    destruct (frame_resend md md' body [] (snd i) Bb Eb H1 H2 H3) as (S & R & _). auto. }
  destruct (amqp_stream md' items b) as (b' & S & R); auto.
  { apply Forall_forall. intros i Hi. destruct (K i Hi) as (? & ? & _). auto. }
  exists b'. split; [exact S|]. intros c Hc. rewrite (R c Hc). f_equal. apply map_ext_in. intros i Hi. f_equal. now apply K.
Qed.
Lemma sasl_relayed md md' chunks st items b : Forall bytes_ok chunks ->
  feed_all sasl_frame_decode md stream_new chunks = (st, map (fun i => EvItem (snd i)) items) ->
  Forall (fun i => 0 <= fst i /\ s_encodable sasl_frame_body_S (sf_body (snd i)) /\ sasl_frame_size (snd i) < 2 ^ 32 /\
                   s_decodable sasl_frame_body_S (s_canon sasl_frame_body_S (sf_body (snd i)))) items -> buf_ok b -> b_data b = [] ->
  exists b', send_all sasl_frame_size sasl_frame_enc items b = Some b' /\
    forall chunks', concat chunks' = b_data b' -> feed_all sasl_frame_decode md' stream_new chunks' = (stream_new, map (fun i => EvItem (snd i)) items).
Proof.
  intros B E F O N. rewrite Forall_forall in F.
  assert (K : forall i, In i items -> 0 <= fst i /\ sasl_sendable (sf_body (snd i)) /\ sasl_received (snd i) = snd i).
  { intros i Hi. destruct (F i Hi) as (H0 & H1 & H2 & H3). split; [exact H0|].
    destruct (items_from sasl_frame_decode md chunks (snd i) B) as (body & Bb & Eb).
    { rewrite E. cbn [snd]. now apply (in_map (fun i => EvItem (snd i))). }
    destruct (sasl_resend md md' body [] (snd i) Bb Eb H1 H2 H3) as (S & R & _). auto. }
  destruct (sasl_stream md' items b) as (b' & S & R); auto.
  { apply Forall_forall. intros i Hi. destruct (K i Hi) as (? & ? & _). auto. }
  exists b'. split; [exact S|]. intros c Hc. rewrite (R c Hc). f_equal. apply map_ext_in. intros i Hi. f_equal. now apply K.
Qed.

(** ** Messages *)
Lemma last_some_in {A} (f : section -> option A) l x : last_some f l = Some x -> exists s, In s l /\ f s = Some x.
Proof.
  induction l as [|s l IH]; cbn [last_some]; [discriminate|]. destruct (last_some f l) as [y|].
  - intros [= ->]. destruct (IH eq_refl) as (t & H & E). exists t. split; [now right|exact E].
  - intros E. exists s. split; [now left|exact E].
Qed.
Lemma all_some_in {A} (f : section -> option A) l x : In x (all_some f l) -> exists s, In s l /\ f s = Some x.
Proof.
  induction l as [|s l IH]; cbn [all_some]; [intros []|]. destruct (f s) as [y|] eqn:E.
  - intros [->|H]; [exists s; split; [now left|exact E]|]. destruct (IH H) as (t & Ht & Et). exists t. split; [now right|exact Et].
  - intros H. destruct (IH H) as (t & Ht & Et). exists t. split; [now right|exact Et].
Qed.
Definition settled_section (s : section) : Prop := s_decodable section_S (s_canon section_S s) -> s_canon section_S s = s.
Lemma received_sections md inp r m : message_decode md inp = Ok (r, m) -> bytes_ok inp ->
  exists secs, m = message_of secs /\ Forall settled_section secs.
Proof.
  intros E B. destruct (message_read md inp r m E) as (secs & parts & -> & _ & F & _ & ->). exists secs. split; [reflexivity|].
  clear E. induction F as [|p s parts secs H F IH]; [apply Forall_nil|]. cbn [concat] in B. apply Forall_app in B as [B1 B2].
  apply Forall_cons; [|now apply IH]. specialize (H []). rewrite app_nil_r in H. exact (received_canonical section_S ty_section md p [] s B1 H).
Qed.
Ltac section_option g :=
  match goal with O : forall A f g c, _ |- option_map ?c (last_some ?f _) = _ => apply (O _ f g c) end;
  [intros [] x E; try discriminate E; injection E as ->; reflexivity|reflexivity|now intros x y [= ->]|].
Lemma message_settled secs : let m := message_of secs in Forall settled_section secs -> Forall section_sendable (message_sections m) ->
  mb_data (m_body m) <> [] \/ mb_value (m_body m) <> None -> message_sendable m /\ received_message m = m.
Proof.
  intros m F S N. assert (SM : message_sendable m) by (split; [exact S|apply Forall_nil]). split; [exact SM|].
  destruct (sendable_body m S) as [HS _]. rewrite Forall_forall in F, S.
  assert (K : forall s, In s secs -> In s (message_sections m) -> s_canon section_S s = s).
  { intros s H1 H2. apply (F s H1). now apply S. }
  assert (O : forall A (f : section -> option A) (g : A -> section) (c : A -> A), (forall s x, f s = Some x -> s = g x) ->
    (forall x, s_canon section_S (g x) = g (c x)) -> (forall x y, g x = g y -> x = y) ->
    incl (opt_list g (last_some f secs)) (message_sections m) -> option_map c (last_some f secs) = last_some f secs).
  { intros A f g c Hf Hc Hg I. destruct (last_some f secs) as [x|] eqn:E; [|reflexivity]. cbn [option_map]. f_equal. apply Hg. rewrite <- Hc.
    apply last_some_in in E as (s & Hs & E). apply Hf in E as ->. apply K; [exact Hs|]. apply I. now left. }
  assert (B : MessageSpec.received_body (m_body m) = m_body m).
  { unfold MessageSpec.received_body. unfold m in *. unfold message_of in *. cbn [m_body mb_data mb_sequence mb_messages mb_value map] in *.
    rewrite app_nil_r, HS. f_equal.
    - clear - N. destruct N as [N|N].
      + match type of N with ?l <> [] => destruct l; [now elim N|reflexivity] end.
      + match type of N with ?v <> None => destruct v; [|now elim N] end. now destruct (all_some _ secs).
    - section_option SEC_AmqpValue. unfold message_sections, body_sections. cbn [m_header m_delivery_annotations m_message_annotations m_properties
        m_application_properties m_footer m_body mb_data mb_sequence mb_messages mb_value].
      intros s Hs. do 5 (apply in_or_app; right). apply in_or_app; left.
      match goal with |- In s match ?l with _ => _ end => assert (In s l) as H end.
      { apply in_or_app; right. apply in_or_app; right. apply in_or_app; now left. }
      destruct (map SEC_Data _ ++ _); [destruct H|exact H]. }
  unfold received_message. rewrite B.
  assert (I : forall l a b c d e g h : list section, l = a \/ l = b \/ l = c \/ l = d \/ l = e \/ l = h -> incl l (a ++ b ++ c ++ d ++ e ++ g ++ h)).
  { intros l a b c d e g h H s Hs. rewrite !in_app_iff. intuition (subst; auto). }
  assert (O1 : option_map (s_canon header_S) (m_header m) = m_header m).
  { unfold m at 1 2; cbn [message_of m_header]. section_option SEC_Header. apply I. now left. }
  assert (O2 : option_map (s_canon fields_S) (m_delivery_annotations m) = m_delivery_annotations m).
  { unfold m at 1 2; cbn [message_of m_delivery_annotations]. section_option SEC_DeliveryAnnotations. apply I. right; now left. }
  assert (O3 : option_map (s_canon fields_S) (m_message_annotations m) = m_message_annotations m).
  { unfold m at 1 2; cbn [message_of m_message_annotations]. section_option SEC_MessageAnnotations. apply I. do 2 right; now left. }
  assert (O4 : option_map (s_canon properties_S) (m_properties m) = m_properties m).
  { unfold m at 1 2; cbn [message_of m_properties]. section_option SEC_Properties. apply I. do 3 right; now left. }
  assert (O5 : option_map (s_canon string_variant_map_S) (m_application_properties m) = m_application_properties m).
  { unfold m at 1 2; cbn [message_of m_application_properties]. section_option SEC_ApplicationProperties. apply I. do 4 right; now left. }
  assert (O6 : option_map (s_canon fields_S) (m_footer m) = m_footer m).
  { unfold m at 1 2; cbn [message_of m_footer]. section_option SEC_Footer. apply I. now do 5 right. }
  rewrite O1, O2, O3, O4, O5, O6. reflexivity.
Qed.
Lemma message_resend md md' inp r m : bytes_ok inp -> message_decode md inp = Ok (r, m) -> Forall section_sendable (message_sections m) ->
  mb_data (m_body m) <> [] \/ mb_value (m_body m) <> None -> exists r', message_decode md' (message_bytes m) = Ok (r', m).
Proof.
  intros B E S N. destruct (received_sections md inp r m E B) as (secs & -> & F). destruct (message_settled secs F S N) as [SM R].
  eexists. rewrite (message_round_trip md' _ SM), R. reflexivity.
Qed.
